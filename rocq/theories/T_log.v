(** C72: logger and op_printall. *)
From Verif Require Import Base Cstr S_num M_num P_num M_stringptr D_stringptr P_stringptr M_opt M_format P_format3 M_fmtuse T_format T_fmtuse M_log.

(** what a descriptor receives: the bytes of the writes, all of them on fd *)
Definition sends (fd : Z) (evs : list event) (t : list Z) : Prop := Forall (fun e => fst e = fd) evs /\ concat (map snd evs) = t.
(** the text of an argument *)
Inductive shows : vario -> list Z -> Prop :=
  | sh_sp s t : holds s t -> shows (VT_STRINGPTR (Some s)) t
  | sh_sp0 : shows (VT_STRINGPTR None) []
  | sh_c t r : nz t -> shows (VT_CHAR_STAR (Some (t ++ 0 :: r))) t
  | sh_c0 : shows (VT_CHAR_STAR None) []
  | sh_cc t r : nz t -> shows (VT_CONST_CHAR_STAR (Some (t ++ 0 :: r))) t
  | sh_cc0 : shows (VT_CONST_CHAR_STAR None) []
  | sh_i x t : - 2 ^ 31 <= x < 2 ^ 31 -> is_decimal x t -> shows (VT_INT x) t
  | sh_u x t : 0 <= x < 2 ^ 32 -> is_decimal x t -> shows (VT_UNSIGNED x) t
  | sh_l x t : - 2 ^ 63 <= x < 2 ^ 63 -> is_decimal x t -> shows (VT_LONG x) t
  | sh_ul x t : 0 <= x < 2 ^ 64 -> is_decimal x t -> shows (VT_ULONG x) t.

Lemma zreads0 (t q : list Z) n : n = zlen t -> zreads (t ++ q) 0 n = Ret t.
Proof. intros ->. change (t ++ q) with ([] ++ t ++ q). apply zreads_at; reflexivity. Qed.
Lemma sends_app fd a b t u : sends fd a t -> sends fd b u -> sends fd (a ++ b) (t ++ u).
Proof. intros [A1 A2] [B1 B2]. split; [now apply Forall_app|]. subst. now rewrite map_app, concat_app. Qed.
Lemma sends_ln fd : sends fd (log_putln fd) [10].
Proof. split; [repeat constructor|reflexivity]. Qed.
Lemma sends1 fd t : sends fd [(fd, t)] t.
Proof. split; [repeat constructor|]. cbn. now rewrite app_nil_r. Qed.
Lemma sends0 fd : sends fd [] [].
Proof. now split. Qed.
Lemma puts_ok fd s t : holds s t -> exists evs, log_puts fd (Some s) = Ret evs /\ sends fd evs t.
Proof.
  intros H. unfold log_puts. pose proof (holds_size s t H) as L. destruct (Z.eqb_spec (sz s) 0) as [E|E].
  - exists []. split; [reflexivity|]. assert (t = []) by (apply zlen_0; lia). subst t. apply sends0.
  - pose proof (holds_reads s t H) as R. rewrite R. cbn [bind]. eauto using sends1.
Qed.
Lemma putc_ok fd t r : nz t -> exists evs, log_putc fd (Some (t ++ 0 :: r)) = Ret evs /\ sends fd evs t.
Proof.
  intros N. unfold log_putc. rewrite strlen_0 by exact N. cbn [bind log_puts sz sb so]. destruct (Z.eqb_spec (zlen t) 0) as [E|E].
  - exists []. split; [reflexivity|]. apply zlen_0 in E. subst t. apply sends0.
  - rewrite zreads0 by reflexivity. cbn [bind]. eauto using sends1.
Qed.
Lemma putd_ok buf fd n sg : zlen buf = 32 -> (if negb (sg =? 0) then - 2 ^ 63 <= n < 2 ^ 63 else 0 <= n < 2 ^ 64) ->
  exists t, is_decimal n t /\ log_putd buf fd (u64 n) sg = Ret [(fd, t)].
Proof.
  intros L R. unfold log_putd. set (fl := if negb (sg =? 0) then 2 else 0).
  assert (E : u64 n = if n <? 0 then n + 2 ^ 64 else n).
  { destruct (Z.ltb_spec n 0); [unfold u64; rewrite <- (Z_mod_plus_full n 1), Z.mod_small; destruct (negb (sg =? 0)); lia|apply u64_id; destruct (negb (sg =? 0)); lia]. }
  pose proof (u64_range n) as Ru.
  assert (Ng : neg_of (u64 n) fl = (n <? 0)). { unfold neg_of, fl. rewrite E. destruct (negb (sg =? 0)); destruct (Z.ltb_spec n 0); try lia; change (Z.land 2 2 =? 0) with false; cbn [negb andb]; try lia; reflexivity. }
  assert (Mg : mag_of (u64 n) fl = Z.abs n). { unfold mag_of. rewrite Ng, E. destruct (Z.ltb_spec n 0); lia. }
  destruct (nts_exact (u64 n) 10 buf fl Ru ltac:(lia) ltac:(reflexivity)) as (ds & Rp & X). rewrite Ng, Mg in *. cbv zeta in X.
  assert (Lw : lower_of 10 fl = false) by (unfold lower_of, fl; destruct (negb (sg =? 0)); reflexivity). rewrite Lw in X.
  set (t := sign_str (n <? 0) ++ map (digit_char false) ds) in *. assert (D : is_decimal n t) by (exists ds; split; [exact Rp|reflexivity]).
  assert (Lt : 1 <= zlen t <= 21). { apply (decimal_len n t 20 D); [lia|]. change (10 ^ 20) with 100000000000000000000. destruct (negb (sg =? 0)); lia. }
  assert (Et : sign_str (n <? 0) ++ map (digit_char false) ds ++ [0] = t ++ [0]) by (unfold t; now rewrite <- app_assoc). rewrite Et in X. rewrite X by (zl; lia). cbn [bind].
  exists t. split; [exact D|]. rewrite <- app_assoc. cbn [app]. rewrite strlen_0 by (eapply decimal_nz; eauto). cbn [bind].
  rewrite zreads0 by reflexivity. reflexivity.
Qed.
Lemma decimal_fun n s t : is_decimal n s -> is_decimal n t -> s = t.
Proof. intros (d & A & ->) (e & B & ->). rewrite (repr_fun 10 _ d e ltac:(lia) A B). reflexivity. Qed.
Lemma put1_ok buf fd v t : zlen buf = 32 -> shows v t -> exists evs, log_put1 buf fd v = Ret evs /\ sends fd evs t.
Proof.
  intros L H. destruct H; cbn [log_put1]; try (exists []; split; [reflexivity|apply sends0]).
  - now apply puts_ok.
  - now apply (putc_ok fd t r).
  - now apply (putc_ok fd t r).
  - destruct (putd_ok buf fd x 1 L ltac:(cbn; lia)) as (t' & D & E). rewrite (decimal_fun x t t') by assumption. eauto using sends1.
  - destruct (putd_ok buf fd x 0 L ltac:(cbn; lia)) as (t' & D & E). rewrite (decimal_fun x t t') by assumption. eauto using sends1.
  - destruct (putd_ok buf fd x 1 L ltac:(cbn; lia)) as (t' & D & E). rewrite (decimal_fun x t t') by assumption. eauto using sends1.
  - destruct (putd_ok buf fd x 0 L ltac:(cbn; lia)) as (t' & D & E). rewrite (decimal_fun x t t') by assumption. eauto using sends1.
Qed.
(** C72: log_put sends the texts of its arguments and one LF, all to fd *)
Theorem c72_log_put junk fd args ts : (forall i, zlen (junk i) = 32) -> Forall2 shows args ts ->
  exists evs, log_put junk fd args = Ret evs /\ sends fd evs (concat ts ++ [10]).
Proof.
  intros J F. unfold log_put. assert (X : exists evs, log_put_loop junk fd args = Ret evs /\ sends fd evs (concat ts)).
  { induction F as [|v t args ts H F (evs & E & S)]; cbn [log_put_loop concat]; [exists []; split; [reflexivity|apply sends0]|].
    destruct (put1_ok (junk (length args)) fd v t (J _) H) as (e1 & E1 & S1). rewrite E1, E. cbn [bind]. exists (e1 ++ evs). split; [reflexivity|]. now apply sends_app. }
  destruct X as (evs & -> & S). cbn [bind]. exists (evs ++ log_putln fd). split; [reflexivity|]. apply sends_app; [exact S|apply sends_ln].
Qed.
Print Assumptions c72_log_put.
(** every argument that is valid has a text: numbers have exactly one decimal *)
Theorem c72_numbers_total x : - 2 ^ 63 <= x < 2 ^ 64 -> exists t, is_decimal x t /\ forall t', is_decimal x t' -> t' = t.
Proof.
  intros H. assert (exists t, is_decimal x t) as [t D]. { destruct (Z_lt_dec x 0). - destruct (putd_ok (zrepeat 0 32) 1 x 1 eq_refl ltac:(cbn; lia)) as (t & D & _); eauto. - destruct (putd_ok (zrepeat 0 32) 1 x 0 eq_refl ltac:(cbn; lia)) as (t & D & _); eauto. }
  exists t. split; [exact D|]. intros t' D'. eapply decimal_fun; eauto.
Qed.
Print Assumptions c72_numbers_total.
(** C72: log_puts, log_putc *)
Theorem c72_log_puts fd s t : holds s t -> exists evs, log_puts fd (Some s) = Ret evs /\ sends fd evs t.
Proof. exact (puts_ok fd s t). Qed.
Print Assumptions c72_log_puts.
Theorem c72_log_putc fd t r : nz t -> exists evs, log_putc fd (Some (t ++ 0 :: r)) = Ret evs /\ sends fd evs t.
Proof. exact (putc_ok fd t r). Qed.
Print Assumptions c72_log_putc.
Theorem c72_null fd : log_puts fd None = Ret [] /\ log_putc fd None = Ret [].
Proof. split; reflexivity. Qed.
Print Assumptions c72_null.
(** C72: log_putd, of a signed or an unsigned 64 bit number *)
Theorem c72_log_putd buf fd n : zlen buf = 32 ->
  (- 2 ^ 63 <= n < 2 ^ 63 -> forall sg, sg <> 0 -> exists t, is_decimal n t /\ log_putd buf fd (u64 n) sg = Ret [(fd, t)]) /\
  (0 <= n < 2 ^ 64 -> exists t, is_decimal n t /\ log_putd buf fd n 0 = Ret [(fd, t)]).
Proof.
  intros L. split; [intros H sg S; apply putd_ok; [exact L|]; replace (sg =? 0) with false by lia; exact H|]. intros H. pose proof (putd_ok buf fd n 0 L H) as Q. rewrite u64_id in Q by lia. exact Q.
Qed.
Print Assumptions c72_log_putd.
(** C72: log_puterror: the text, ": ", the message of errno and LF *)
Theorem c72_log_puterror fd t r m r' : nz t -> nz m -> exists evs, log_puterror fd (Some (t ++ 0 :: r)) (Some (m ++ 0 :: r')) = Ret evs /\ sends fd evs (t ++ [58; 32] ++ m ++ [10]).
Proof.
  intros T M. unfold log_puterror. destruct (putc_ok fd t r T) as (a & -> & A). destruct (putc_ok fd m r' M) as (c & -> & C). cbn [bind].
  change (log_puts fd (Some (mkSp [58; 32; 0] 0 2))) with (Ret [(fd, [58; 32])]). cbn [bind]. eexists. split; [reflexivity|]. apply sends_app; [exact A|]. apply (sends_app fd [(fd, [58; 32])]); [apply sends1|]. apply sends_app; [exact C|apply sends_ln].
Qed.
Print Assumptions c72_log_puterror.
(** C72: log_timestamp: the 19 characters of the time *)
Theorem c72_log_timestamp buffer fd tim cbuf : zlen buffer = 32 -> zlen cbuf = 32 ->
  -1900 <= tm_year tim < 8100 -> 0 <= tm_mon tim <= 11 -> 1 <= tm_mday tim <= 31 -> 0 <= tm_hour tim <= 23 -> 0 <= tm_min tim <= 59 -> 0 <= tm_sec tim <= 60 ->
  log_timestamp buffer fd tim cbuf = Ret [(fd, date_text (1900 + tm_year tim) (tm_mon tim + 1) (tm_mday tim) (tm_hour tim) (tm_min tim) (tm_sec tim))].
Proof.
  intros B C H1 H2 H3 H4 H5 H6. destruct (c69_timestamp tim buffer 32 cbuf ltac:(lia) C H1 H2 H3 H4 H5 H6) as [L E]. unfold log_timestamp. rewrite E. cbn [bind]. change (Z.min (32 - 1) 19) with 19. unfold log_puts. cbn [sz sb so Z.eqb]. unfold written. cbv zeta.
  set (t := date_text _ _ _ _ _ _) in *. rewrite ztake_all by lia. rewrite zreads0 by lia. reflexivity.
Qed.
Print Assumptions c72_log_timestamp.
(** C72: op_printall prints every argument but the first on a line of its own *)
Theorem c72_op_printall a0 ts rs : Forall nz ts -> length rs = length ts -> zlen ts < 2 ^ 31 - 1 -> let av := a0 :: map (fun p => fst p ++ 0 :: snd p) (combine ts rs) in
  exists evs, op_printall (op_init (zlen av) av) = Ret evs /\ sends 1 evs (concat (map (fun t => t ++ [10]) ts)).
Proof.
  intros N L B av. set (f := fun p : list Z * list Z => fst p ++ 0 :: snd p). assert (Lc : length (combine ts rs) = length ts) by (rewrite combine_length; lia).
  assert (La : zlen av = 1 + zlen ts). { unfold av. rewrite zlen_cons, zlen_map. unfold zlen. lia. } unfold op_printall, op_init. cbn [argv]. rewrite u32_id by (pose proof (zlen_nonneg ts); lia).
  assert (X : forall ts2 rs2 pre fuel, Forall nz ts2 -> length rs2 = length ts2 -> av = pre ++ map f (combine ts2 rs2) -> (length ts2 < fuel)%nat ->
    exists evs, printall_loop fuel (mkOp (zlen av) av) (zlen pre) = Ret evs /\ sends 1 evs (concat (map (fun t => t ++ [10]) ts2))).
  { induction ts2 as [|t ts2 IH]; intros rs2 pre fuel N2 L2 E F; (destruct fuel as [|fuel]; [lia|]); cbn [printall_loop argc argv].
    - cbn [combine map] in E. rewrite app_nil_r in E. rewrite E. rewrite Z.ltb_irrefl. exists []. split; [reflexivity|apply sends0].
    - destruct rs2 as [|r rs2]; [discriminate|]. cbn [combine map] in E. inversion N2; subst. pose proof (zlen_nonneg (map f (combine ts2 rs2))).
      replace (zlen pre <? zlen av) with true by (rewrite E; zl; lia). assert (Zr : zread av (zlen pre) = Ret (f (t, r))) by (rewrite E; apply zread_at; reflexivity). rewrite Zr. cbn [bind]. unfold f at 1. cbn [fst snd]. destruct (putc_ok 1 t r ltac:(assumption)) as (a & -> & A). cbn [bind].
      destruct (IH rs2 (pre ++ [f (t, r)]) fuel ltac:(assumption) ltac:(cbn in L2; lia)) as (b & Eb & B2). { rewrite E, <- app_assoc. reflexivity. } { cbn in F. lia. }
      rewrite zlen_app in Eb. change (zlen [f (t, r)]) with 1 in Eb. rewrite Eb. cbn [bind]. eexists. split; [reflexivity|]. cbn [map concat]. rewrite <- app_assoc. apply sends_app; [exact A|]. apply sends_app; [apply sends_ln|exact B2]. }
  apply (X ts rs [a0]); auto. cbn [length av]. unfold av. cbn [length]. rewrite map_length. fold f. lia.
Qed.
Print Assumptions c72_op_printall.
Example c72_ex : let j := fun _ : nat => zrepeat 9 32 in
  log_put j 2 [VT_STRINGPTR (Some (mkSp [7; 97; 98; 7] 1 2)); VT_INT (-12); VT_CHAR_STAR None; VT_ULONG (2 ^ 64 - 1); VT_CONST_CHAR_STAR (Some [33; 0]); VT_LONG (- 2 ^ 63)] =
  Ret [(2, [97; 98]); (2, [45; 49; 50]); (2, [49; 56; 52; 52; 54; 55; 52; 52; 48; 55; 51; 55; 48; 57; 53; 53; 49; 54; 49; 53]); (2, [33]); (2, [45; 57; 50; 50; 51; 51; 55; 50; 48; 51; 54; 56; 53; 52; 55; 55; 53; 56; 48; 56]); (2, [10])] /\
  op_printall (op_init 3 [[97; 0]; [0]; [98; 0]]) = Ret [(1, [10]); (1, [98]); (1, [10])] /\
  log_puterror 2 (Some [97; 0]) (Some [98; 0]) = Ret [(2, [97]); (2, [58; 32]); (2, [98]); (2, [10])].
Proof. repeat split; vm_compute; reflexivity. Qed.
