(** C121: the logger on a descriptor that takes only a part of what is written. *)
From Verif Require Import Base Cstr S_num M_num P_num M_stringptr D_stringptr P_stringptr M_opt M_format P_format3 M_fmtuse T_format T_fmtuse M_log T_log M_logio S_logio.

Lemma zlen_take_le r (x : list Z) : zlen (ztake r x) <= zlen x.
Proof. pose proof (zlen_nonneg x). destruct (Z_lt_dec r 0); [rewrite ztake_neg by lia; zl; lia|rewrite zlen_ztake_min by lia; lia]. Qed.
Section IO.
Variable wr : nat -> Z * Z.
Fixpoint run (evs : list event) (w : world) : world := match evs with [] => w | (fd, x) :: evs => run evs (write_ wr fd x w) end.
Lemma run_app a b w : run (a ++ b) w = run b (run a w).
Proof. revert w. induction a as [|[fd x] a IH]; intros w; cbn [run app]; auto. Qed.
Lemma io_puts_run fd s w : io_puts wr fd s w = let* evs := log_puts fd s in Ret (run evs w).
Proof. destruct s as [s|]; cbn [io_puts log_puts]; [|reflexivity]. destruct (sz s =? 0); [reflexivity|]. destruct (zreads _ _ _); reflexivity. Qed.
Lemma io_putc_run fd s w : io_putc wr fd s w = let* evs := log_putc fd s in Ret (run evs w).
Proof. destruct s as [s|]; cbn [io_putc log_putc]; [|reflexivity]. destruct (strlen _ _); cbn [bind]; try reflexivity. apply io_puts_run. Qed.
Lemma io_putd_run buf fd n sg w : io_putd wr buf fd n sg w = let* evs := log_putd buf fd n sg in Ret (run evs w).
Proof.
  unfold io_putd, log_putd. destruct (numberToString _ _ _ _ _) as [[[c b]|]| |]; cbn [bind]; try reflexivity. destruct (strlen _ _); cbn [bind]; try reflexivity. destruct (zreads _ _ _); reflexivity.
Qed.
Lemma io_put1_run buf fd v w : io_put1 wr buf fd v w = let* evs := log_put1 buf fd v in Ret (run evs w).
Proof.
  destruct v as [s|[c|]|[c|]|x|x|x|x|]; cbn [io_put1 log_put1]; try reflexivity; try apply io_puts_run; try apply io_putd_run; destruct (strlen _ _); cbn [bind]; try reflexivity; apply io_puts_run.
Qed.
Lemma io_loop_run junk fd args w : io_put_loop wr junk fd args w = let* evs := log_put_loop junk fd args in Ret (run evs w).
Proof.
  revert w. induction args as [|v args IH]; intros w; cbn [io_put_loop log_put_loop]; [reflexivity|]. rewrite io_put1_run. destruct (log_put1 _ _ _) as [a| |]; cbn [bind]; try reflexivity.
  rewrite IH. destruct (log_put_loop _ _ _) as [b| |]; cbn [bind]; try reflexivity. now rewrite run_app.
Qed.
Lemma io_put_run junk fd args w : io_put wr junk fd args w = let* evs := log_put junk fd args in Ret (run evs w).
Proof. unfold io_put, log_put. rewrite io_loop_run. destruct (log_put_loop _ _ _); cbn [bind]; try reflexivity. rewrite run_app. reflexivity. Qed.
Lemma io_puterror_run strerror fd err w : io_puterror wr strerror fd err w = let* evs := log_puterror fd err (strerror (w_errno w)) in Ret (run evs w).
Proof.
  unfold io_puterror, log_puterror. rewrite io_putc_run. destruct (log_putc fd err) as [a| |]; cbn [bind]; try reflexivity. rewrite io_puts_run. destruct (log_puts fd _) as [b| |]; cbn [bind]; try reflexivity.
  rewrite io_putc_run. destruct (log_putc fd _) as [c| |]; cbn [bind]; try reflexivity. now rewrite !run_app.
Qed.
Lemma io_printall_run fuel p i w : io_printall_loop wr fuel p i w = let* evs := printall_loop fuel p i in Ret (run evs w).
Proof.
  revert i w. induction fuel as [|fuel IH]; intros i w; cbn [io_printall_loop printall_loop]; [reflexivity|]. destruct (i <? argc p); [|reflexivity]. destruct (zread _ _) as [s| |]; cbn [bind]; try reflexivity.
  rewrite io_putc_run. destruct (log_putc 1 _) as [a| |]; cbn [bind]; try reflexivity. rewrite IH. destruct (printall_loop _ _ _) as [b| |]; cbn [bind]; try reflexivity. now rewrite !run_app.
Qed.
(** no event is empty *)
Definition full (evs : list event) : Prop := Forall (fun e => snd e <> []) evs.
Lemma zreads_full (b : list Z) o n x : zreads b o n = Ret x -> n <> 0 -> x <> [].
Proof. unfold zreads. destruct (_ && _) eqn:Q; [|discriminate]. intros [= <-] N E. assert (L := f_equal zlen E). apply andb_prop in Q as [Q1 Q2]. rewrite zlen_ztake in L; [cbn in L; lia|]. rewrite zlen_zdrop by lia. lia. Qed.
Lemma puts_full fd s evs : log_puts fd s = Ret evs -> full evs.
Proof.
  destruct s as [s|]; cbn [log_puts]; [|intros [= <-]; constructor]. destruct (Z.eqb_spec (sz s) 0); [intros [= <-]; constructor|]. destruct (zreads _ _ _) as [x| |] eqn:Q; cbn [bind]; [|discriminate..].
  intros [= <-]. repeat constructor. cbn [snd]. eapply zreads_full; eauto.
Qed.
Lemma putc_full fd s evs : log_putc fd s = Ret evs -> full evs.
Proof. destruct s as [s|]; cbn [log_putc]; [|intros [= <-]; constructor]. destruct (strlen _ _); cbn [bind]; [|discriminate..]. apply puts_full. Qed.
Lemma decimal_full n t : is_decimal n t -> t <> [].
Proof. intros D ->. assert (P : Z.abs n + 1 < 10 ^ (Z.abs n + 1)) by (apply Z.pow_gt_lin_r; lia). pose proof (decimal_len n [] (Z.abs n + 1) D ltac:(lia) ltac:(lia)) as Q. cbn in Q. lia. Qed.
Lemma put1_full buf fd v t evs : zlen buf = 32 -> shows v t -> log_put1 buf fd v = Ret evs -> full evs.
Proof.
  intros L H. destruct H; cbn [log_put1]; try (intros [= <-]; constructor); try apply puts_full; try (intros Q; now apply (putc_full fd (Some (t ++ 0 :: r)) evs)).
  1: destruct (putd_ok buf fd x 1 L ltac:(cbn; lia)) as (t' & D & ->). 2: destruct (putd_ok buf fd x 0 L ltac:(cbn; lia)) as (t' & D & ->). 3: destruct (putd_ok buf fd x 1 L ltac:(cbn; lia)) as (t' & D & ->). 4: destruct (putd_ok buf fd x 0 L ltac:(cbn; lia)) as (t' & D & ->).
  all: intros [= <-]; repeat constructor; eapply decimal_full; eauto.
Qed.
Lemma full_app a b : full a -> full b -> full (a ++ b).
Proof. intros. now apply Forall_app. Qed.
Lemma full_ln fd : full (log_putln fd).
Proof. repeat constructor. discriminate. Qed.
Lemma put_full junk fd args ts evs : (forall i, zlen (junk i) = 32) -> Forall2 shows args ts -> log_put junk fd args = Ret evs -> full evs.
Proof.
  intros J F. unfold log_put. assert (X : forall e, log_put_loop junk fd args = Ret e -> full e).
  { induction F as [|v t args ts H F IH]; cbn [log_put_loop]; [intros e [= <-]; constructor|]. intros e. destruct (log_put1 _ _ _) as [a| |] eqn:Q; cbn [bind]; try discriminate. destruct (log_put_loop _ _ _) as [b| |]; cbn [bind]; try discriminate.
    intros [= <-]. apply full_app; [eapply put1_full; eauto|auto]. }
  destruct (log_put_loop _ _ _) as [a| |]; cbn [bind]; try discriminate. intros [= <-]. apply full_app; [now apply X|apply full_ln].
Qed.
Lemma puterror_full fd err msg evs : log_puterror fd err msg = Ret evs -> full evs.
Proof.
  unfold log_puterror. destruct (log_putc fd err) as [a| |] eqn:A; cbn [bind]; try discriminate. destruct (log_puts fd _) as [b| |] eqn:B; cbn [bind]; try discriminate. destruct (log_putc fd msg) as [c| |] eqn:C; cbn [bind]; try discriminate.
  intros [= <-]. repeat apply full_app; eauto using putc_full, puts_full, full_ln.
Qed.
Lemma printall_full fuel p i evs : printall_loop fuel p i = Ret evs -> full evs.
Proof.
  revert i evs. induction fuel as [|fuel IH]; intros i evs; cbn [printall_loop]; [discriminate|]. destruct (i <? argc p); [|intros [= <-]; constructor]. destruct (zread _ _) as [s| |]; cbn [bind]; try discriminate.
  destruct (log_putc 1 _) as [a| |] eqn:A; cbn [bind]; try discriminate. destruct (printall_loop _ _ _) as [b| |] eqn:B; cbn [bind]; try discriminate. intros [= <-]. apply full_app; [eapply putc_full; eauto|]. apply (full_app (log_putln 1)); [apply full_ln|eauto].
Qed.
Lemma run_asked fd evs t w : sends fd evs t -> full evs -> exists cs, w_calls (run evs w) = w_calls w ++ cs /\ asked wr (length (w_calls w)) fd cs t.
Proof.
  intros [F <-] U. revert w. induction F as [|[f x] evs E F IH]; intros w; cbn [run map concat snd].
  - exists []. rewrite app_nil_r. split; [reflexivity|]. split; [reflexivity|]. intros [|i] c; discriminate.
  - cbn in E. subst f. inversion U as [|? ? U1 U2]; subst. cbn [snd] in U1. destruct (IH U2 (write_ wr fd x w)) as (cs & C & A & B). unfold write_ in *. destruct (wr (length (w_calls w))) as [r e] eqn:Q. cbn [w_calls] in *.
    exists ((fd, x, r) :: cs). split; [rewrite C, <- app_assoc; reflexivity|]. split; [cbn [map concat fst snd]; now rewrite A|]. intros [|i] c H; cbn [nth_error] in H.
    + injection H as <-. cbn [fst snd]. rewrite Nat.add_0_r, Q. auto using eq_refl.
    + apply B in H as (H1 & H3 & H2). split; [exact H1|]. split; [exact H3|]. rewrite H2, app_length. cbn [length]. do 2 f_equal. lia.
Qed.
(** all of these also hold when writes fail or are short: the program asks for the same bytes *)
Definition asks (w : world) (fd : Z) (t : list Z) (o : out world) : Prop :=
  exists w' cs, o = Ret w' /\ w_calls w' = w_calls w ++ cs /\ asked wr (length (w_calls w)) fd cs t.
Lemma asks_of w fd t o evs : o = Ret evs -> sends fd evs t -> full evs -> asks w fd t (let* evs := o in Ret (run evs w)).
Proof. intros -> H U. destruct (run_asked fd evs t w H U) as (cs & A & B). cbn [bind]. exists (run evs w), cs. auto. Qed.
End IO.

(** C121: log_put asks for the texts of its arguments and LF whatever became of the writes before *)
Theorem c121_log_put wr junk fd args ts w : (forall i, zlen (junk i) = 32) -> Forall2 shows args ts -> asks wr w fd (concat ts ++ [10]) (io_put wr junk fd args w).
Proof. intros J F. rewrite io_put_run. destruct (c72_log_put junk fd args ts J F) as (evs & E & H). eapply asks_of; eauto using put_full. Qed.
Print Assumptions c121_log_put.
(** C121: the message of log_puterror is that of the errno on entry, though its own writes may set errno *)
Theorem c121_log_puterror wr strerror fd t r m r' w : nz t -> nz m -> strerror (w_errno w) = Some (m ++ 0 :: r') ->
  asks wr w fd (t ++ [58; 32] ++ m ++ [10]) (io_puterror wr strerror fd (Some (t ++ 0 :: r)) w).
Proof. intros T M E. rewrite io_puterror_run, E. destruct (c72_log_puterror fd t r m r' T M) as (evs & E2 & H). eapply asks_of; eauto using puterror_full. Qed.
Print Assumptions c121_log_puterror.
Theorem c121_others wr fd w :
  (forall s t, holds s t -> asks wr w fd t (io_puts wr fd (Some s) w)) /\ (forall t r, nz t -> asks wr w fd t (io_putc wr fd (Some (t ++ 0 :: r)) w)) /\
  (forall buf n, zlen buf = 32 -> - 2 ^ 63 <= n < 2 ^ 63 -> exists t, is_decimal n t /\ asks wr w fd t (io_putd wr buf fd (u64 n) 1 w)) /\
  (forall buf n, zlen buf = 32 -> 0 <= n < 2 ^ 64 -> exists t, is_decimal n t /\ asks wr w fd t (io_putd wr buf fd n 0 w)).
Proof.
  repeat split.
  - intros s t H. rewrite io_puts_run. destruct (puts_ok fd s t H) as (evs & E & S1). eapply asks_of; eauto using puts_full.
  - intros t r H. rewrite io_putc_run. destruct (putc_ok fd t r H) as (evs & E & S1). eapply asks_of; eauto using putc_full.
  - intros buf n L R. destruct (putd_ok buf fd n 1 L ltac:(cbn; lia)) as (t & D & E). exists t. split; [exact D|]. rewrite io_putd_run. eapply asks_of; [exact E|apply sends1|repeat constructor; eapply decimal_full; eauto].
  - intros buf n L R. destruct (putd_ok buf fd n 0 L ltac:(cbn; lia)) as (t & D & E). exists t. split; [exact D|]. rewrite u64_id in E by lia. rewrite io_putd_run. eapply asks_of; [exact E|apply sends1|repeat constructor; eapply decimal_full; eauto].
Qed.
Print Assumptions c121_others.
Theorem c121_log_timestamp wr buffer fd tim cbuf w : zlen buffer = 32 -> zlen cbuf = 32 ->
  -1900 <= tm_year tim < 8100 -> 0 <= tm_mon tim <= 11 -> 1 <= tm_mday tim <= 31 -> 0 <= tm_hour tim <= 23 -> 0 <= tm_min tim <= 59 -> 0 <= tm_sec tim <= 60 ->
  asks wr w fd (date_text (1900 + tm_year tim) (tm_mon tim + 1) (tm_mday tim) (tm_hour tim) (tm_min tim) (tm_sec tim)) (io_timestamp wr buffer fd tim cbuf w).
Proof.
  intros B C H1 H2 H3 H4 H5 H6. pose proof (c72_log_timestamp buffer fd tim cbuf B C H1 H2 H3 H4 H5 H6) as E. unfold log_timestamp in E. unfold io_timestamp. destruct (timestamp _ _ _ _) as [[n b]| |]; cbn [bind] in *; try discriminate.
  rewrite io_puts_run. eapply asks_of; [exact E|apply sends1|eapply puts_full; eauto].
Qed.
Print Assumptions c121_log_timestamp.
Theorem c121_op_printall wr a0 ts rs w : Forall nz ts -> length rs = length ts -> zlen ts < 2 ^ 31 - 1 -> let av := a0 :: map (fun p => fst p ++ 0 :: snd p) (combine ts rs) in
  asks wr w 1 (concat (map (fun t => t ++ [10]) ts)) (io_printall wr (op_init (zlen av) av) w).
Proof. intros N L B av. unfold io_printall. rewrite io_printall_run. destruct (c72_op_printall a0 ts rs N L B) as (evs & E & H). eapply asks_of; [exact E|exact H|eapply printall_full; exact E]. Qed.
Print Assumptions c121_op_printall.

(** C121: if every write took everything, the text arrives; if write gives at most what is asked, in no other case *)
Theorem c121_arrives wr n fd cs t : asked wr n fd cs t -> Forall possible cs -> (arrives fd cs = t <-> Forall complete cs).
Proof.
  intros [<- H] P. assert (F : Forall (fun c => fst (fst c) = fd /\ snd (fst c) <> []) cs).
  { apply Forall_forall. intros c I. apply In_nth_error in I as [i I]. apply H in I as (A & B & _). auto. } clear H. unfold arrives.
  assert (T : forall c : wcall, fst (fst c) = fd -> part fd c = ztake (snd c) (snd (fst c))).
  { intros [[f x] r] E. cbn in E. subst f. cbn [part fst snd]. now rewrite Z.eqb_refl. }
  assert (LE : forall cs : list wcall, zlen (concat (map (fun c => ztake (snd c) (snd (fst c))) cs)) <= zlen (concat (map (fun c => snd (fst c)) cs))).
  { induction cs0 as [|[[f x] r] cs0 IH]; cbn [map concat]; [lia|]. rewrite !zlen_app. cbn [fst snd]. pose proof (zlen_take_le r x). lia. }
  induction cs as [|[[f x] r] cs IH]; cbn [map concat]; [split; constructor|]. inversion F as [|? ? [F1 F2] F3]; subst. inversion P; subst. cbn [fst snd part] in *. rewrite Z.eqb_refl. specialize (IH ltac:(assumption) ltac:(assumption)).
  assert (M : map (part f) cs = map (fun c => ztake (snd c) (snd (fst c))) cs).
  { apply map_ext_in. intros c I. apply T. eapply (proj1 (Forall_forall _ cs)) in F3; [|exact I]. apply F3. } split.
  - intros E. rewrite M in E. assert (L := f_equal zlen E). rewrite !zlen_app in L. specialize (LE cs). pose proof (zlen_take_le r x). cbn [possible] in *.
    assert (Q : zlen (ztake r x) = zlen x) by lia. assert (r = zlen x). { destruct (Z_lt_dec r 0); [|rewrite zlen_ztake in Q by lia; lia]. rewrite ztake_neg in Q by lia. symmetry in Q. now apply zlen_0 in Q. }
    constructor; [cbn; auto|]. apply IH. rewrite M. subst r. rewrite ztake_all in E by lia. now apply app_inv_head in E.
  - intros C. inversion C; subst. cbn [complete] in *. subst r. rewrite ztake_all by lia. f_equal. now apply IH.
Qed.
Print Assumptions c121_arrives.
(** C121: nothing is tried again: a text of one write of which one byte was taken is cut, and LF follows *)
Theorem c121_retried_refuted : exists wr junk w', io_put wr junk 2 [VT_CHAR_STAR (Some [97; 98; 99; 0])] (mkW 0 []) = Ret w' /\ Forall possible (w_calls w') /\ arrives 2 (w_calls w') = [97; 10].
Proof.
  exists (fun _ => (1, 0)), (fun _ => zrepeat 0 32), (mkW 0 [(2, [97; 98; 99], 1); (2, [10], 1)]). repeat split; try (vm_compute; reflexivity). repeat constructor; cbn; try lia; vm_compute; discriminate.
Qed.
Print Assumptions c121_retried_refuted.
(** C121: errno afterwards: unchanged if no write failed, else that of the last one that failed *)
Theorem c121_errno wr junk fd args w w' : io_put wr junk fd args w = Ret w' -> let k := length (w_calls w) in let m := length (w_calls w') in
  ((forall i, (k <= i < m)%nat -> 0 <= fst (wr i)) -> w_errno w' = w_errno w) /\
  (forall i, (k <= i < m)%nat -> fst (wr i) < 0 -> (forall j, (i < j < m)%nat -> 0 <= fst (wr j)) -> w_errno w' = snd (wr i)).
Proof.
  rewrite io_put_run. destruct (log_put _ _ _) as [evs| |]; cbn [bind]; try discriminate. intros [= <-]. cbv zeta. revert w. induction evs as [|[f x] evs IH]; intros w; cbn [run].
  - split; [reflexivity|]. intros i H. lia.
  - destruct (IH (write_ wr f x w)) as [A B]. unfold write_ in *. destruct (wr (length (w_calls w))) as [r e] eqn:Q. cbn [w_calls w_errno] in *.
    set (w2 := mkW _ _) in *. assert (L : length (w_calls w ++ [(f, x, r)]) = Datatypes.S (length (w_calls w))) by (rewrite app_length; cbn; lia). rewrite L in *.
    assert (M : (Datatypes.S (length (w_calls w)) <= length (w_calls (run wr evs w2)))%nat).
    { rewrite <- L. change (w_calls w ++ [(f, x, r)]) with (w_calls w2). clearbody w2. clear. revert w2. induction evs as [|[g y] evs IH]; intros w2; cbn [run]; [lia|]. specialize (IH (write_ wr g y w2)). unfold write_ in *. destruct (wr _). cbn [w_calls] in *. rewrite app_length in IH. lia. }
    split.
    + intros H. rewrite A by (intros; apply H; lia). specialize (H (length (w_calls w)) ltac:(lia)). rewrite Q in H. cbn [fst] in H. now replace (r <? 0) with false by lia.
    + intros i Hi N Later. destruct (Nat.eq_dec i (length (w_calls w))) as [->|D].
      * rewrite A by (intros; apply Later; lia). rewrite Q in *. cbn [fst snd] in *. now replace (r <? 0) with true by lia.
      * apply B; auto. lia.
Qed.
Print Assumptions c121_errno.
Example c121_ex : let wr := fun k => nth k [(1, 0); (-1, 5); (1, 0)] (1, 0) in let j := fun _ : nat => zrepeat 9 32 in
  io_put wr j 2 [VT_CHAR_STAR (Some [97; 98; 0]); VT_INT 7] (mkW 9 []) = Ret (mkW 5 [(2, [97; 98], 1); (2, [55], -1); (2, [10], 1)]) /\
  arrives 2 [(2, [97; 98], 1); (2, [55], -1); (2, [10], 1)] = [97; 10] /\
  io_puterror wr (fun n => Some [n; 0]) 2 (Some [97; 0]) (mkW 9 []) = Ret (mkW 5 [(2, [97], 1); (2, [58; 32], -1); (2, [9], 1); (2, [10], 1)]).
Proof. repeat split; vm_compute; reflexivity. Qed.
