(** Proofs for M_ininext. *)
From Verif Require Import Base Cstr M_stringptr D_stringptr S_stringptr P_stringptr M_spl P_spl M_fileparser M_spfile P_spfile M_ini S_ini P_ini M_iniuse S_iniuse P_iniuse
  M_format S_format P_format P_format2 P_format3 M_fmtuse P_ex M_ininext S_ininext.

Lemma printf_cut items cbuf dest : Forall supported items -> zlen cbuf = 32 -> zlen dest = 4096 ->
  exists ss, Forall2 prints items ss /\
    (concat ss <> [] -> ulz_printf (concat (map item_fmt items) ++ [0]) (concat (map item_args items)) dest cbuf = Ret (Some (1, ztake 4095 (concat ss)))).
Proof.
  intros S C D. destruct (text_run_items items [] cbuf S C) as (ss & P & E). exists ss. split; [exact P|]. intros N. unfold ulz_printf, ulz_fprintf. rewrite run_ok by lia. rewrite E. cbv zeta. cbn [bind].
  change (4096 - 1) with 4095. set (t := ztake 4095 (concat ss)). assert (0 < zlen t <= 4095). { unfold t. destruct (concat ss) as [|c l]; [congruence|]. pose proof (zlen_nonneg l). pose proof (zlen_cons c l). destruct (Z_le_dec 4095 (zlen (c :: l))); [rewrite zlen_ztake by lia; lia|rewrite ztake_all by lia; lia]. }
  replace (zlen t =? 0) with false by lia. rewrite u64_id by lia. change (t ++ 0 :: zdrop (zlen t + 1) dest) with ([] ++ t ++ 0 :: zdrop (zlen t + 1) dest). rewrite zreads_at by reflexivity. reflexivity.
Qed.
Lemma until_nul_split t r : exists s rest, t ++ 0 :: r = s ++ 0 :: rest /\ s = until_nul t /\ nz s.
Proof.
  induction t as [|c t IH]; [exists [], r; repeat split; constructor|]. cbn [until_nul app]. destruct (Z.eqb_spec c 0) as [->|N]; [exists [], (t ++ 0 :: r); repeat split; constructor|].
  destruct IH as (s & rest & E & -> & Z). exists (c :: until_nul t), rest. split; [now rewrite E|]. split; [reflexivity|]. constructor; assumption.
Qed.
Lemma next_print_text t r cbuf dest : zlen cbuf = 32 -> zlen dest = 4096 ->
  ulz_printf next_fmt [VStr (Some (t ++ 0 :: r))] dest cbuf = Ret (Some (1, ztake 4095 (shown_text ++ until_nul t ++ [10]))).
Proof.
  intros C D. destruct (until_nul_split t r) as (s & rest & E & Es & Z). rewrite E, <- Es.
  set (items := map Lit shown_text ++ [Str s rest; Lit 10]).
  assert (Sp : Forall supported items). { unfold items. apply Forall_app. split; [repeat constructor; lia|]. constructor; [exact Z|]. constructor; [cbn; lia|constructor]. }
  destruct (printf_cut items cbuf dest Sp C D) as (ss & P & Q).
  assert (Ess : concat ss = shown_text ++ s ++ [10]).
  { unfold items in P. apply Forall2_app_inv_l in P as (s1 & s2 & P1 & P2 & ->). rewrite concat_app. f_equal.
    - clear - P1. revert s1 P1. induction shown_text as [|c l IH]; intros s1 P; cbn [map] in P; inversion P as [|? y ? ys Hp Ht]; subst; [reflexivity|]. cbn [concat]. cbn [prints] in Hp. rewrite Hp. cbn [app]. f_equal. now apply IH.
    - inversion P2 as [|? y ? ys H1 P3]; subst. inversion P3 as [|? y2 ? ys2 H2 P4]; subst. inversion P4; subst. cbn [prints concat] in *. subst. reflexivity. }
  rewrite Ess in Q. change (concat (map item_fmt items) ++ [0]) with next_fmt in Q. change (concat (map item_args items)) with [VStr (Some (s ++ 0 :: rest))] in Q. apply Q. discriminate.
Qed.
(** ** values *)
Lemma value_in_some k l v : value_in k l = Some v <-> assigns k l v.
Proof.
  unfold value_in, assigns, eqs. split.
  - destruct (list_eq_dec Z.eq_dec _ _) as [E|]; [|discriminate]. intros [= <-]. rewrite <- (ztake_zdrop (zlen k + 1) l) at 1. rewrite E, <- app_assoc. reflexivity.
  - intros ->. change (k ++ 61 :: v) with (k ++ [61] ++ v). rewrite app_assoc. replace (zlen k + 1) with (zlen (k ++ [61])) by (zl; reflexivity). rewrite ztake_app_exact, zdrop_app_exact. destruct (list_eq_dec _ _ _); congruence.
Qed.
Lemma value_in_none k l : (forall v, ~ assigns k l v) -> value_in k l = None.
Proof. intros H. destruct (value_in k l) eqn:E; [|reflexivity]. apply value_in_some in E. now elim (H l0). Qed.
Lemma loop_first key kt ini ps : holds key kt -> Forall2 line_at ini ps -> forall es a b fuel, ps = a ++ es ++ b -> (length es < fuel)%nat ->
  exists q, value_loop fuel ini (zlen a + zlen es) key (zlen a) = Ret q /\
  match first_value kt es with
  | Some v => exists n x, q = Some (n, x) /\ line_at x v
  | None => q = None
  end.
Proof.
  intros Hk P2. assert (Hi : Forall2 holds ini ps) by (eapply F2_impl; [|exact P2]; intros ? ? X; apply X). assert (Le : zlen ini = zlen ps) by (eapply F2_len; eassumption).
  induction es as [|l es IH]; intros a b fuel E F; (destruct fuel as [|fuel]; [cbn in F; lia|]); cbn [value_loop first_value].
  - replace (zlen a <? _) with false by (change (zlen []) with 0; lia). now exists None.
  - pose proof (zlen_nonneg es). pose proof (zlen_nonneg a). pose proof (zlen_nonneg b). rewrite zlen_cons. replace (zlen a <? _) with true by lia.
    assert (Lp : zlen a < zlen ps) by (rewrite E; cbn [app]; rewrite zlen_app, zlen_cons, zlen_app; lia). unfold get_line. rewrite Le. replace ((0 <=? zlen a) && (zlen a <? zlen ps)) with true by lia.
    pose proof (Forall2_znth line_at (mkSp [] 0 0) [] ini ps (zlen a) P2 ltac:(lia)) as [Ha Hb]. set (line := znth _ ini _) in *. assert (El : znth [] ps (zlen a) = l) by (rewrite E; cbn [app]; apply znth_app_exact). rewrite El in Ha.
    destruct (match_ok key kt Hk line l Ha) as (m & -> & M). cbn [bind]. destruct m.
    + destruct M as (v & A & Hv & [T1 T2]). apply value_in_some in A. rewrite A. eexists. split; [reflexivity|]. eexists _, _. split; [reflexivity|]. split; [exact Hv|]. rewrite T1, T2. exact Hb.
    + rewrite (value_in_none _ _ M). specialize (IH (a ++ [l]) b fuel). rewrite <- app_assoc in IH. specialize (IH E). replace (zlen (a ++ [l])) with (zlen a + 1) in IH by (zl; reflexivity). replace (zlen a + (1 + zlen es)) with (zlen a + 1 + zlen es) by lia. replace (zlen a + (zlen es + 1)) with (zlen a + 1 + zlen es) by lia. apply IH. cbn in F. lia.
Qed.
Lemma line_text s t : line_at s t -> exists r, zdrop (so s) (sb s) = t ++ 0 :: r.
Proof.
  intros [(pre & post & E & Ho & Hs & L) Z]. rewrite E, Ho, zdrop_app_exact. rewrite E, Ho, Hs in Z. destruct post as [|c post].
  - rewrite zread_oob in Z by (zl; lia). discriminate.
  - rewrite app_assoc, zread_at in Z by (zl; lia). injection Z as ->. now exists post.
Qed.
Lemma next_print_ok key kt ini ps sec dest cbuf : holds key kt -> Forall2 line_at ini ps -> zlen ps < 2 ^ 63 -> 0 <= fst sec -> 0 <= snd sec -> fst sec + snd sec <= zlen ps -> zlen cbuf = 32 -> zlen dest = 4096 ->
  next_print ini key sec dest cbuf = Ret (map (pair 1) (shown (first_value kt (lines_of ps sec)))).
Proof.
  intros Hk P2 L A B C Cb D. destruct sec as [s c]. cbn [fst snd] in *. unfold next_print, lines_of, iniparser_getvalue, iniparser_getvalue_at. cbn [fst snd]. cbv zeta. rewrite u64_id by lia.
  assert (E : ps = ztake s ps ++ ztake c (zdrop s ps) ++ zdrop c (zdrop s ps)) by (rewrite !ztake_zdrop; reflexivity).
  assert (La : zlen (ztake s ps) = s) by (apply zlen_ztake; lia). assert (Lm : zlen (ztake c (zdrop s ps)) = c) by (apply zlen_ztake; rewrite zlen_zdrop by lia; lia).
  set (es := ztake c (zdrop s ps)) in *. destruct (loop_first key kt ini ps Hk P2 es (ztake s ps) (zdrop c (zdrop s ps)) (S (Z.to_nat (s + c - s))) E ltac:(unfold zlen in Lm; lia)) as (q & Eq & Q). rewrite La, Lm in Eq. rewrite Eq. cbn [bind].
  destruct (first_value kt es) as [v|]; [|subst q; reflexivity]. destruct Q as (n & x & -> & Hx). cbn [option_map snd]. destruct (line_text x v Hx) as (r & Er). destruct Hx as [Hx _]. destruct (holds_size _ _ Hx) as [Sx Bx]. rewrite Sx. destruct v as [|c0 v].
  - reflexivity.
  - pose proof (zlen_nonneg v). replace (zlen (c0 :: v) =? 0) with false by (rewrite zlen_cons; lia). rewrite Er, next_print_text by assumption. cbn [bind shown map]. reflexivity.
Qed.
Lemma sections_range nt ls : forall i s, In s (sections nt i ls) -> i + 1 <= fst s /\ 0 <= snd s /\ fst s + snd s <= i + zlen ls.
Proof.
  induction ls as [|l ls IH]; intros i s I; cbn [sections] in I; [elim I|]. rewrite zlen_cons. assert (X : In s (sections nt (i + 1) ls) -> i + 1 <= fst s /\ 0 <= snd s /\ fst s + snd s <= i + (1 + zlen ls)) by (intros J; apply IH in J; lia).
  destruct (header nt l); [|specialize (X I); lia]. destruct I as [<-|I]; [|specialize (X I); lia]. cbn [fst snd]. pose proof (body_len ls). pose proof (zlen_nonneg (body ls)). lia.
Qed.
Lemma next_loop_ok name nt key kt ini ps dest cbuf : holds name nt -> holds key kt -> Forall2 line_at ini ps -> zlen ps < 2 ^ 63 -> zlen cbuf = 32 -> zlen dest = 4096 ->
  forall n k fuel prev, (k + n = length (sections nt 0 ps))%nat -> (n < fuel)%nat ->
  iniparser_get_next_section ini name prev = Ret (nth k (sections nt 0 ps) (0, 0)) ->
  next_loop fuel ini name key prev dest cbuf = Ret (map (pair 1) (flat_map (fun s => shown (first_value kt (lines_of ps s))) (until_empty (skipn k (sections nt 0 ps))))).
Proof.
  intros Hn Hk P2 L C D. assert (Hi : Forall2 holds ini ps) by (eapply F2_impl; [|exact P2]; intros ? ? X; apply X). set (ss := sections nt 0 ps) in *.
  induction n as [|n IH]; intros k fuel prev K F E; (destruct fuel as [|fuel]; [lia|]); cbn [next_loop]; rewrite E; cbn [bind].
  - rewrite nth_overflow by lia. rewrite skipn_all2 by lia. reflexivity.
  - set (s := nth k ss (0, 0)) in *. assert (Es : skipn k ss = s :: skipn (S k) ss).
    { assert (X : forall (l : list (Z * Z)) j, (j < length l)%nat -> skipn j l = nth j l (0, 0) :: skipn (S j) l). { induction l as [|y l IHl]; intros [|j] J; cbn in J; try lia; [reflexivity|]. cbn [skipn nth]. rewrite IHl by lia. reflexivity. } apply X. lia. }
    rewrite Es. cbn [until_empty]. destruct (snd s =? 0) eqn:Z0; [reflexivity|]. assert (Is : In s ss) by (apply nth_In; lia). apply sections_range in Is as (R1 & R2 & R3).
    rewrite (next_print_ok key kt ini ps s dest cbuf Hk P2 L) by (assumption || lia). cbn [bind]. rewrite (IH (S k) fuel s) by (try lia; apply (next_ok name nt ini ps k Hn Hi L); fold ss; lia). cbn [bind flat_map]. now rewrite map_app.
Qed.
(** ** the whole program *)
Lemma sections_count nt ls : forall i, (length (sections nt i ls) <= length ls)%nat.
Proof. induction ls as [|l ls IH]; intros i; cbn [sections length]; [lia|]. specialize (IH (i + 1)). destruct (header nt l); cbn [length]; lia. Qed.
Lemma next_main_ok junk rs content name nt key kt dest cbuf fuel : content <> [] -> bytes content -> zlen content < 2 ^ 62 -> Forall moves rs -> zlen content <= zlen rs ->
  holds name nt -> holds key kt -> zlen cbuf = 32 -> zlen dest = 4096 -> zlen content + 2 <= Z.of_nat fuel ->
  exists ps, ps <> [] /\ join [10] ps = content /\ Forall (fun l => ~ In 10 l) ps /\
  next_main fuel (zlen content) true (Some junk) rs content name key dest cbuf =
    Ret (map (pair 1) (flat_map (fun s => shown (first_value kt (lines_of ps s))) (until_empty (sections nt 0 ps)))).
Proof.
  intros Nc Bt L M R Hn Hk C D F. unfold next_main. destruct (fromfile_all junk rs content Nc ltac:(lia) M R) as (c & -> & (h & Lh & Ec)). cbn [bind].
  assert (Hc : holds_in c h content [0]). { subst c. split; [reflexivity|]. split; [now rewrite Lh|]. split; [reflexivity|]. cbn [sb]. zl. lia. }
  destruct (splitc_ok c h content 0 [] 10 Hc Bt ltac:(unfold byte; lia)) as (ps & Np & J & Fp & Rs). change (s8 10) with 10 in Rs. rewrite Rs. cbn [bind].
  exists ps. split; [exact Np|]. split; [exact J|]. split. { eapply Forall_impl; [|exact Fp]. cbn. intros p P I. rewrite Forall_forall in P. now apply (P 10). }
  assert (Lb : zlen (h ++ join [0] ps ++ [0]) < 2 ^ 63). { zl. rewrite (zlen_join_eq [0] [10] ps eq_refl), J. lia. }
  pose proof (places_ok [] (zlen h) (zlen content) ps h Lb) as P2. set (ini := entries _ _) in *.
  assert (Lp : zlen ps <= zlen content + 1). { rewrite <- J, zlen_join by assumption. pose proof (zlen_nonneg (concat ps)). change (zlen [10]) with 1. lia. }
  assert (Hi : Forall2 holds ini ps) by (eapply F2_impl; [|exact P2]; intros ? ? X; apply X). pose proof (sections_count nt ps 0) as Sc. unfold zlen in Lp, F.
  rewrite (next_loop_ok name nt key kt ini ps dest cbuf Hn Hk P2 ltac:(unfold zlen in *; lia) C D (length (sections nt 0 ps)) 0%nat fuel (0, 0)); [reflexivity|lia|lia|].
  unfold iniparser_get_next_section. cbn [fst snd]. change (u64 (0 + 0)) with 0. rewrite (section_at name nt Hn ini ps Hi 0) by (pose proof (zlen_nonneg ps); lia). rewrite zdrop_0. now destruct (sections nt 0 ps).
Qed.
(** ** files made of sections and entries *)
Lemma first_value_entries kt es r : ~ In 61 kt -> Forall (fun e => key_ok (fst e)) es -> r = [] \/ r = [[]] -> first_value kt (map entry_text es ++ r) = value_for kt es.
Proof.
  intros N F R. unfold value_for. induction F as [|e es K F IH]; cbn [map app first_value find].
  - destruct R as [-> | ->]; [reflexivity|]. cbn [first_value option_map]. rewrite value_in_none; [reflexivity|]. intros v. apply assigns_nil.
  - destruct (value_in kt (entry_text e)) as [v|] eqn:E.
    + apply value_in_some, (assigns_entry kt e v N K) in E as [E1 E2]. unfold eqs. destruct (list_eq_dec _ _ _); [|congruence]. cbn [option_map]. congruence.
    + unfold eqs at 1. destruct (list_eq_dec Z.eq_dec (fst e) kt) as [X|X]; [|exact IH]. exfalso. assert (Y : value_in kt (entry_text e) = Some (snd e)) by (apply value_in_some, assigns_entry; auto). congruence.
Qed.
Lemma data_values nt kt f : ~ In 93 nt -> ~ In 61 kt -> Forall (fun s => name_ok (fst s) /\ Forall (fun e => key_ok (fst e)) (snd s)) f -> forall pre,
  flat_map (fun s => shown (first_value kt (lines_of (pre ++ ini_lines f ++ [[]]) s))) (until_empty (sections nt (zlen pre) (ini_lines f ++ [[]]))) =
  flat_map (fun s => shown (value_for kt (snd s))) (before_empty (named nt f)).
Proof.
  intros Nt Nk. induction 1 as [|s f [Hn Hk] F IH]; intros pre.
  { cbn [ini_lines flat_map app sections named filter]. unfold header. destruct (list_eq_dec _ _ _) as [X|]; [|reflexivity]. exfalso. assert (Z : ztake (zlen nt + 2) (@nil Z) = []) by (unfold ztake; apply firstn_nil). rewrite Z in X. discriminate X. }
  destruct s as [n es]. cbn [fst snd] in *. assert (El : ini_lines ((n, es) :: f) ++ [[]] = ([91] ++ n ++ [93]) :: map entry_text es ++ ini_lines f ++ [[]]) by (unfold ini_lines; cbn [flat_map section_lines fst snd]; rewrite <- app_assoc; reflexivity).
  rewrite El. cbn [sections named filter fst]. rewrite (header_line nt n Hn Nt). fold (named nt f).
  specialize (IH (pre ++ ([91] ++ n ++ [93]) :: map entry_text es)). rewrite <- app_assoc, <- app_comm_cons in IH. replace (zlen (pre ++ ([91] ++ n ++ [93]) :: map entry_text es)) with (zlen pre + 1 + zlen es) in IH by (rewrite zlen_app, zlen_cons, zlen_map; lia). rewrite sections_skip by assumption.
  destruct (eqs n nt); [|exact IH]. rewrite body_entries by assumption. cbn [until_empty snd before_empty].
  set (all := pre ++ _) in *. assert (Ed : zdrop (zlen pre + 1) all = map entry_text es ++ ini_lines f ++ [[]]).
  { unfold all. change (([91] ++ n ++ [93]) :: map entry_text es ++ ini_lines f ++ [[]]) with ([[91] ++ n ++ [93]] ++ map entry_text es ++ ini_lines f ++ [[]]). rewrite (app_assoc pre). replace (zlen pre + 1) with (zlen (pre ++ [[91] ++ n ++ [93]])) by (zl; reflexivity). apply zdrop_app_exact. }
  clearbody all. pose proof (zlen_nonneg es). destruct f as [|[n2 e2] f].
  - cbn [ini_lines flat_map app body opens] in *. assert (Ls : zlen (map entry_text es ++ [[]]) = zlen es + 1) by (rewrite zlen_app, zlen_map; reflexivity). rewrite Ls. replace (zlen es + 1 =? 0) with false by lia. cbn [flat_map]. rewrite IH. unfold lines_of. cbn [fst snd]. rewrite Ed, ztake_all by lia. rewrite first_value_entries by auto.
    cbn [named filter before_empty flat_map]. destruct es as [|e es]; [reflexivity|]. cbn [flat_map snd]. reflexivity.
  - assert (Eb : body (ini_lines ((n2, e2) :: f) ++ [[]]) = []) by reflexivity. rewrite Eb, app_nil_r, zlen_map. destruct es as [|e es]; [reflexivity|]. replace (zlen (e :: es) =? 0) with false by (rewrite zlen_cons in *; pose proof (zlen_nonneg es); lia). cbn [flat_map]. rewrite IH. unfold lines_of. cbn [fst snd]. rewrite Ed, <- (zlen_map entry_text), ztake_app_exact.
    rewrite <- (app_nil_r (map entry_text (e :: es))), first_value_entries by auto. reflexivity.
Qed.
Lemma next_data junk rs f name nt key kt dest cbuf fuel : f <> [] -> ini_ok f -> bytes (ini_text f) -> zlen (ini_text f) < 2 ^ 62 -> Forall moves rs -> zlen (ini_text f) <= zlen rs ->
  holds name nt -> holds key kt -> ~ In 93 nt -> ~ In 61 kt -> zlen cbuf = 32 -> zlen dest = 4096 -> zlen (ini_text f) + 2 <= Z.of_nat fuel ->
  next_main fuel (zlen (ini_text f)) true (Some junk) rs (ini_text f) name key dest cbuf = Ret (map (pair 1) (flat_map (fun s => shown (value_for kt (snd s))) (before_empty (named nt f)))).
Proof.
  intros Nf [F N] Bt L M R Hn Hk Nn Nk C D Fu. assert (Nt : ini_text f <> []). { destruct f as [|s f]; [congruence|]. unfold ini_text, ini_lines. cbn [flat_map section_lines app]. discriminate. }
  destruct (next_main_ok junk rs (ini_text f) name nt key kt dest cbuf fuel Nt Bt L M R Hn Hk C D Fu) as (ps & Np & J & Fp & ->).
  assert (Eps : ps = ini_lines f ++ [[]]).
  { apply (join_inj 10); auto.
    - destruct (ini_lines f); cbn [app]; congruence.
    - apply Forall_app. split; [exact N|]. constructor; [intros []|constructor].
    - rewrite J. unfold ini_text. apply lines_join. }
  subst ps. do 2 f_equal. exact (data_values nt kt f Nn Nk F []).
Qed.
