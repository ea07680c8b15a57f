From Verif Require Import Base M_heap S_heap P_heap M_own P_own P_own2 M_ownfl.
From Coq Require Import Permutation.

Definition flown (f : hfl) : list Z := match ffiles f with Some l => owned l | None => [] end ++ nn (fglob f).
Lemma fl_loop_ok fs : forall h base g (l : hspl), g <> 0 -> hself l <> 0 -> owns h base (owned l ++ [g]) ->
  exists r h' f, fl_loop h g l fs = Ret (r, h', f) /\
    (r = 0 /\ owns h' base (flown f) \/
     r = -1 /\ exists l', ffiles f = Some l' /\ fglob f = 0 /\ hself l' <> 0 /\ (In NoSlash fs /\ owns h' base (owned l') \/ owns h' base (nn (hbuf l')))).
Proof.
  induction fs as [|[| |] fs IH]; intros h base g l G S O; cbn [fl_loop].
  - do 3 eexists. split; [reflexivity|]. left. split; [reflexivity|]. unfold flown. cbn. rewrite (nn1 _ G). exact O.
  - destruct (IH h base g l G S O) as (r & h' & f & E & H). exists r, h', f. split; [exact E|]. destruct H as [H|(H & l' & A & B & C & D)]; [left; exact H|right]. split; auto. exists l'. repeat split; auto. destruct D as [[D D']|D]; [left; split; [now right|exact D']|right; exact D].
  - unfold globfree. destruct (hfree_ok h base (owned l) g) as (h1 & -> & O1 & _). { eapply owns_perm; [|exact O]. perm. } cbn [bind]. do 3 eexists. split; [reflexivity|]. right. split; [reflexivity|]. exists l. cbn. repeat split; auto.
  - destruct (sb_add_ok _ _ _ _ l (1, 1) O) as (ok & h1 & l1 & -> & O1 & S1 & _). cbn [bind]. destruct ok.
    + destruct (IH h1 base g l1 G ltac:(congruence) O1) as (r & h' & f & E & H). exists r, h', f. split; [exact E|]. destruct H as [H|(H & l' & A & B & C & D)]; [left; exact H|right]. split; auto. exists l'. repeat split; auto. destruct D as [[D D']|D]; [left; split; [now right|exact D']|right; exact D].
    + unfold owned in O1. rewrite S1 in O1 |- *. rewrite (nn1 _ S) in O1. destruct (hfree_ok h1 base (nn (hbuf l1) ++ [g]) (hself l)) as (h2 & -> & O2 & _). { eapply owns_perm; [|exact O1]. perm. } cbn [bind]. unfold globfree.
      destruct (hfree_ok h2 base (nn (hbuf l1)) g) as (h3 & -> & O3 & _). { eapply owns_perm; [|exact O2]. perm. } cbn [bind]. do 3 eexists. split; [reflexivity|]. right. split; [reflexivity|]. exists l1. cbn. split; [reflexivity|]. split; [reflexivity|]. split; [congruence|]. right. exact O3.
Qed.
Lemma fl_search_ok h base dots fs : owns h base [] ->
  exists r h' f, fl_search h dots fs = Ret (r, h', f) /\
    (r = 0 /\ owns h' base (flown f) \/ r <> 0 /\ ffiles f = None /\ fglob f = 0 /\ owns h' base [] \/
     r = -1 /\ exists l', ffiles f = Some l' /\ fglob f = 0 /\ hself l' <> 0 /\ (In NoSlash fs /\ owns h' base (owned l') \/ owns h' base (nn (hbuf l')))).
Proof.
  intros O. unfold fl_search, NULL. destruct (halloc_ok _ _ _ O) as (g & h1 & -> & [(-> & O1 & _)|(G & O1 & _)]).
  - change (0 =? 0) with true. cbn iota. do 3 eexists. split; [reflexivity|]. right. left. cbn. repeat split; try lia; apply O1.
  - replace (g =? 0) with false by lia. destruct (sb_new_ok (Z * Z) h1 (Z.max 1 (zlen fs)) _ _ O1) as (l & h2 & -> & R). destruct l as [l|].
    + destruct R as (_ & _ & _ & S & R). destruct (split_adds_ok dots _ _ _ _ R) as (h3 & l3 & -> & O3 & S3). cbn [bind]. destruct (fl_loop_ok fs h3 base g l3 G ltac:(congruence) O3) as (r & h' & f & E & H). exists r, h', f. split; [exact E|]. tauto.
    + unfold globfree. destruct (hfree_ok _ _ _ _ R) as (h3 & -> & O3 & _). cbn [bind]. do 3 eexists. split; [reflexivity|]. right. left. cbn. repeat split; try lia; apply O3.
Qed.
Lemma fl_free_ok h base f : owns h base (flown f) -> exists h', fl_free h f = Ret h' /\ owns h' base [].
Proof.
  intros O. unfold fl_free, flown, globfree in *. destruct (ffiles f) as [l|].
  - destruct (sb_free_ok _ _ _ _ _ O) as (h1 & -> & O1). cbn [bind]. destruct (free_nn h1 base [] (fglob f)) as (h2 & E & O2 & _); [now rewrite app_nil_r|]. eauto.
  - cbn [bind]. destruct (free_nn h base [] (fglob f)) as (h2 & E & O2 & _); [now rewrite app_nil_r|]. eauto.
Qed.
(** freeing a list whose struct was freed before *)
Lemma fl_free_ub h base f l : ffiles f = Some l -> owns h base (nn (hbuf l)) -> hself l <> 0 -> ~ In (hself l) base -> fl_free h f = UB.
Proof.
  intros F O S N. unfold fl_free. rewrite F. unfold sb_free, sb_free_items. destruct (free_nn h base [] (hbuf l)) as (h1 & E & O1 & _); [now rewrite app_nil_r|].
  assert (X : (if hbuf l =? NULL then Ret h else hfree h (hbuf l)) = Ret h1). { unfold NULL. destruct (Z.eqb_spec (hbuf l) 0) as [Y|]; [rewrite Y, hfree_null in E|]; auto. }
  rewrite X. cbn [bind hself]. rewrite hfree_ub; [reflexivity|exact S|]. intros I. apply N. destruct O1 as [_ P]. apply (Permutation_in _ P) in I. exact I.
Qed.
