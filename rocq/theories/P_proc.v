(** Lemmas on descriptor tables for C66 and C67. *)
From Verif Require Import Base M_proc.

Lemma set_len t fd o : 0 <= fd < zlen t -> zlen (set t fd o) = zlen t.
Proof. intros. unfold set. zl. rewrite zlen_ztake, zlen_zdrop; lia. Qed.
Lemma open_set t fd o i : 0 <= fd < zlen t -> is_open (set t fd o) i = if i =? fd then o else is_open t i.
Proof.
  intros F. unfold is_open. rewrite set_len by exact F. destruct (Z.eqb_spec i fd) as [->|N].
  - replace ((0 <=? fd) && (fd <? zlen t)) with true by lia. unfold set. rewrite <- (zlen_ztake fd t) at 3 by lia. now rewrite znth_app_exact.
  - destruct ((0 <=? i) && (i <? zlen t)) eqn:B; [|reflexivity]. unfold set. destruct (Z_lt_dec i fd).
    + rewrite znth_app1 by (rewrite zlen_ztake by lia; lia). apply znth_ztake. lia.
    + rewrite znth_app2 by (rewrite zlen_ztake by lia; lia). rewrite zlen_ztake by lia. rewrite znth_consS by lia. rewrite znth_zdrop by lia. f_equal. lia.
Qed.
Lemma open_range t fd o : is_open t fd = Some o -> 0 <= fd < zlen t.
Proof. unfold is_open. destruct ((0 <=? fd) && (fd <? zlen t)) eqn:B; [lia|discriminate]. Qed.
Lemma close_len t fd : zlen (close t fd) = zlen t.
Proof. unfold close. destruct (is_open t fd) eqn:E; [|reflexivity]. apply set_len. eapply open_range, E. Qed.
Lemma open_close t fd i : is_open (close t fd) i = if i =? fd then None else is_open t i.
Proof. unfold close. destruct (is_open t fd) eqn:E; [apply open_set; eapply open_range, E|]. destruct (Z.eqb_spec i fd) as [->|]; [exact E|reflexivity]. Qed.
Lemma table_ext (t t' : table) : zlen t = zlen t' -> (forall i, is_open t i = is_open t' i) -> t = t'.
Proof. intros L H. apply (znth_ext None); [exact L|]. intros i I. specialize (H i). unfold is_open in H. rewrite L in *. now replace ((0 <=? i) && (i <? zlen t')) with true in H by lia. Qed.
Lemma closes_open l : forall t i, is_open (fold_left close l t) i = if existsb (Z.eqb i) l then None else is_open t i.
Proof. induction l as [|x l IH]; intros t i; [reflexivity|]. cbn [fold_left existsb]. rewrite IH, open_close. destruct (i =? x), (existsb (Z.eqb i) l); reflexivity. Qed.
Lemma closes_len l : forall t, zlen (fold_left close l t) = zlen t.
Proof. induction l as [|x l IH]; intros t; [reflexivity|]. cbn [fold_left]. rewrite IH. apply close_len. Qed.
Lemma cleanup_closes l : forall t, ~ In 0 l -> cleanup t l = fold_left close l t.
Proof. induction l as [|x l IH]; intros t N; [reflexivity|]. cbn [cleanup fold_left]. destruct (Z.eqb_spec x 0) as [->|]; [exfalso; apply N; now left|]. apply IH. intros I. apply N. now right. Qed.

(** lowest free descriptor *)
Lemma lowest_ok t : forall i, match lowest t i with
  | Some fd => i <= fd < i + zlen t /\ znth None t (fd - i) = None /\ (forall j, i <= j < fd -> znth None t (j - i) <> None)
  | None => forall j, 0 <= j < zlen t -> znth None t j <> None
  end.
Proof.
  induction t as [|[o|] t IH]; intros i; cbn [lowest].
  - intros j J. change (zlen (@nil (option obj))) with 0 in J. lia.
  - specialize (IH (i + 1)). destruct (lowest t (i + 1)) as [fd|]; rewrite zlen_cons.
    + destruct IH as (A & B & C). split; [lia|]. split; [rewrite znth_consS by lia; replace (fd - i - 1) with (fd - (i + 1)) by lia; exact B|]. intros j J. destruct (Z.eq_dec j i) as [->|]; [now rewrite Z.sub_diag|]. rewrite znth_consS by lia. replace (j - i - 1) with (j - (i + 1)) by lia. apply C. lia.
    + intros j J. destruct (Z.eq_dec j 0) as [->|]; [discriminate|]. rewrite znth_consS by lia. apply IH. lia.
  - rewrite zlen_cons. pose proof (zlen_nonneg t). split; [lia|]. split; [now rewrite Z.sub_diag|]. lia.
Qed.
Lemma newfd_ok lim t o fd t' : newfd lim t o = Some (fd, t') ->
  0 <= fd < zlen t /\ fd < lim /\ is_open t fd = None /\ (forall j, 0 <= j < fd -> is_open t j <> None) /\ t' = set t fd (Some o).
Proof.
  unfold newfd. pose proof (lowest_ok t 0) as H. destruct (lowest t 0) as [x|]; [|discriminate]. destruct (Z.ltb_spec x lim); [|discriminate]. intros E. injection E as <- <-. destruct H as (A & B & C). rewrite Z.sub_0_r in B. split; [lia|]. split; [assumption|].
  unfold is_open. split; [destruct ((0 <=? x) && (x <? zlen t)); [exact B|reflexivity]|]. split; [|reflexivity]. intros j J. replace ((0 <=? j) && (j <? zlen t)) with true by lia. specialize (C j J). now rewrite Z.sub_0_r in C.
Qed.
Lemma newfd_some lim t o x : is_open t x = None -> 0 <= x < zlen t -> x < lim -> exists fd, fd <= x /\ newfd lim t o = Some (fd, set t fd (Some o)).
Proof.
  intros N R L. unfold newfd. pose proof (lowest_ok t 0) as H. assert (E : znth None t x = None) by (unfold is_open in N; now replace ((0 <=? x) && (x <? zlen t)) with true in N by lia).
  destruct (lowest t 0) as [fd|]; [|now specialize (H x R)]. destruct H as (A & B & C). destruct (Z_lt_dec x fd); [exfalso; apply (C x); [lia|now rewrite Z.sub_0_r]|]. exists fd. split; [lia|]. now replace (fd <? lim) with true by lia.
Qed.
Lemma pipe_ok f lim t k r w t' : pipe f lim t k = Some (r, w, t') ->
  r <> w /\ is_open t r = None /\ is_open t w = None /\ 0 <= r < zlen t /\ 0 <= w < zlen t /\ zlen t' = zlen t /\
  forall i, is_open t' i = if i =? r then Some (PipeR k) else if i =? w then Some (PipeW k) else is_open t i.
Proof.
  unfold pipe. destruct f; [discriminate|]. destruct (newfd lim t (PipeR k)) as [[r1 t1]|] eqn:E1; [|discriminate]. destruct (newfd lim t1 (PipeW k)) as [[w1 t2]|] eqn:E2; [|discriminate]. intros E. injection E as <- <- <-.
  apply newfd_ok in E1 as (R1 & _ & N1 & _ & ->). apply newfd_ok in E2 as (R2 & _ & N2 & _ & ->). rewrite set_len in R2 by exact R1. rewrite open_set in N2 by exact R1. destruct (Z.eqb_spec w1 r1) as [|D]; [discriminate|].
  repeat split; try assumption; try lia; [rewrite !set_len; (rewrite ?set_len; assumption) || reflexivity|]. intros i. rewrite open_set by (rewrite set_len; assumption). rewrite open_set by exact R1. destruct (Z.eqb_spec i w1), (Z.eqb_spec i r1); subst; congruence.
Qed.
(** all pipes made so far: the ends are new, the rest of the table is as before *)
Definition made (t t1 : table) (ends : list Z) : Prop :=
  zlen t1 = zlen t /\ (forall i, ~ In i ends -> is_open t1 i = is_open t i) /\ (forall i, In i ends -> is_open t i = None).
Lemma pipes_made f lim t n : forall i k t1 ends, made t t1 ends -> let '(_, t2, ends2) := pipes f lim n i k t1 ends in made t t2 ends2.
Proof.
  induction n as [|n IH]; intros i k t1 ends M; [exact M|]. cbn [pipes]. destruct (pipe _ _ _ _) as [[[r w] t2]|] eqn:E; [|exact M]. apply pipe_ok in E as (D & Nr & Nw & _ & _ & L & O). apply IH.
  destruct M as (L1 & A & B). split; [congruence|]. split.
  - intros j J. rewrite in_app_iff in J. rewrite O. destruct (Z.eqb_spec j r) as [->|]; [exfalso; apply J; right; now left|]. destruct (Z.eqb_spec j w) as [->|]; [exfalso; apply J; right; right; now left|]. apply A. tauto.
  - intros j J. apply in_app_iff in J as [J|J]; [now apply B|]. destruct (in_dec Z.eq_dec j ends) as [I|I]; [now apply B|]. rewrite <- (A j I). destruct J as [<-|[<-|[]]]; assumption.
Qed.
Lemma made_cleanup t t1 ends : made t t1 ends -> is_open t 0 <> None -> cleanup t1 ends = t.
Proof.
  intros (L & A & B) Z0. rewrite cleanup_closes by (intros I; now apply Z0, B). apply table_ext; [now rewrite closes_len|]. intros i. rewrite closes_open. destruct (existsb (Z.eqb i) ends) eqn:E.
  - apply existsb_exists in E as (x & I & X). apply Z.eqb_eq in X as <-. symmetry. now apply B.
  - apply A. intros I. assert (existsb (Z.eqb i) ends = true) by (apply existsb_exists; exists i; split; [exact I|apply Z.eqb_refl]). congruence.
Qed.
(** free descriptors below the limit *)
Definition isnone (o : option obj) : bool := match o with None => true | _ => false end.
Definition free (lim : Z) (t : table) : Z := zlen (filter isnone (ztake lim t)).
Lemma newfd_free lim t o : 0 <= lim <= zlen t -> 0 < free lim t -> exists fd, newfd lim t o = Some (fd, set t fd (Some o)) /\ free lim (set t fd (Some o)) = free lim t - 1 /\ zlen (set t fd (Some o)) = zlen t.
Proof.
  intros L F. assert (X : exists x, 0 <= x < lim /\ is_open t x = None).
  { unfold free in F. destruct (filter isnone (ztake lim t)) as [|y l] eqn:E; [change (zlen (@nil (option obj))) with 0 in F; lia|]. assert (I : In y (filter isnone (ztake lim t))) by (rewrite E; now left). apply filter_In in I as (I & Y). destruct y; [discriminate|]. apply (In_nth _ _ None) in I as (n & N & I). exists (Z.of_nat n).
    assert (LT : zlen (ztake lim t) = lim) by (apply zlen_ztake; lia). unfold zlen in LT. split; [lia|]. unfold is_open. replace ((0 <=? Z.of_nat n) && (Z.of_nat n <? zlen t)) with true by lia. rewrite <- (znth_ztake None lim) by lia. unfold znth. now rewrite Nat2Z.id. }
  destruct X as (x & X & N). destruct (newfd_some lim t o x N ltac:(lia) ltac:(lia)) as (fd & Lx & E). exists fd. split; [exact E|]. apply newfd_ok in E as (R & B & O & _ & _). split; [|now apply set_len].
  destruct (zsplit fd t ltac:(lia)) as (p & q & -> & Lp). destruct q as [|y q]; [rewrite app_nil_r in R; lia|]. subst fd. unfold is_open in O. replace ((0 <=? zlen p) && (zlen p <? zlen (p ++ y :: q))) with true in O by lia. rewrite znth_app_exact in O. subst y.
  unfold free, set. rewrite ztake_app_exact. replace (zdrop (zlen p + 1) (p ++ None :: q)) with q. 2: { change (p ++ None :: q) with (p ++ [None] ++ q). rewrite app_assoc. replace (zlen p + 1) with (zlen (p ++ [@None obj])) by (zl; lia). now rewrite zdrop_app_exact. }
  rewrite !ztake_app2 by lia. replace (lim - zlen p) with (1 + (lim - zlen p - 1)) by lia. set (m := lim - zlen p - 1). assert (0 <= m) by lia.
  assert (T : forall z : option obj, ztake (1 + m) (z :: q) = z :: ztake m q). { intros z. unfold ztake. replace (Z.to_nat (1 + m)) with (S (Z.to_nat m)) by lia. reflexivity. } rewrite !T, !filter_app. cbn [filter isnone]. zl. lia.
Qed.
