(** C80: how filelist_search ends and what filelist_free then does, for every pattern of answers of the
    allocator. *)
From Verif Require Import Base M_heap S_heap P_heap M_own D_own P_own P_own2 S_ownexact P_ownexact M_ownfl P_ownfl S_flexact.
From Coq Require Import Permutation.

Lemma items_len (xs : list (Z * Z)) y : zlen (xs ++ [y]) = zlen xs + 1.
Proof. now rewrite zlen_app. Qed.
Lemma dotted_ok n : forall h base own (l : hspl), owns h base (owned l ++ own) -> 0 < hblk l -> 0 <= hcapa l - zlen (hits l) ->
  exists h' l', split_adds h l n = Ret (h', l') /\ owns h' base (owned l' ++ own) /\ hself l' = hself l /\ hblk l' = hblk l /\
    0 <= hcapa l' - zlen (hits l') /\ dotted n (hblk l) (hcapa l - zlen (hits l)) (script h) = (hcapa l' - zlen (hits l'), script h').
Proof.
  induction n as [|n IH]; intros h base own l O B C; cbn [dotted split_adds]; [exists h, l; auto 10|].
  destruct (sb_add_ok _ _ _ _ l (1, 1) O) as (ok & h1 & l1 & E1 & O1 & S1 & I1 & _). rewrite E1. cbn [bind].
  destruct (add_script _ _ _ _ _ _ _ (nxt_pos _ _ _ O) E1) as [K1 X1].
  assert (Q : 0 <= hcapa l1 - zlen (hits l1) /\ (if hcapa l - zlen (hits l) =? 0 then script h1 = tl (script h) /\ hcapa l1 - zlen (hits l1) = (if granted (script h) then hblk l - 1 else 0)
              else script h1 = script h /\ hcapa l1 - zlen (hits l1) = hcapa l - zlen (hits l) - 1)).
  { destruct (Z.eqb_spec (hcapa l - zlen (hits l)) 0) as [R|R].
    - replace (zlen (hits l) =? hcapa l) with true in X1 by lia. destruct X1 as (-> & S3 & C1 & _). rewrite I1, C1. destruct (granted (script h)); rewrite ?items_len; repeat split; auto; lia.
    - replace (zlen (hits l) =? hcapa l) with false in X1 by lia. destruct X1 as (-> & -> & C1 & _). rewrite I1, C1, items_len. repeat split; auto; lia. }
  destruct Q as [Q0 Q]. destruct (IH h1 base own l1 O1 ltac:(lia) Q0) as (h2 & l2 & E2 & O2 & S2 & K2 & Q2 & D2). exists h2, l2.
  split; [exact E2|]. split; [exact O2|]. split; [congruence|]. split; [congruence|]. split; [exact Q2|]. rewrite <- D2, K1.
  destruct (hcapa l - zlen (hits l) =? 0); destruct Q as [-> ->]; reflexivity.
Qed.
Lemma own_notin h base p own : owns h base (p :: own) -> ~ In p base.
Proof. intros [(N & _ & _) P] I. assert (N2 := Permutation_NoDup P N). cbn in N2. inversion N2 as [|x y A _]. apply A, in_or_app. now right. Qed.

(** what filelist_free does with what is left *)
Definition freed (base : list Z) (h : heap) (f : hfl) (r : Z) (e : ending) : Prop :=
  match e with
  | NoGlob => r = 1 | NoList => r = -1 | Done => r = 0 | BadName => r = -1 | NoRoom => r = -1
  end /\
  match e with
  | NoRoom => fl_free h f = UB
  | _ => exists h2, fl_free h f = Ret h2 /\ sane h2 /\ Permutation (live h2) base
  end /\
  (ffiles f = None <-> e = NoGlob \/ e = NoList) /\ (fglob f = 0 <-> e <> Done).
Lemma named_ok fs : forall h base g (l : hspl), g <> 0 -> hself l <> 0 -> owns h base (owned l ++ [g]) -> 0 < hblk l -> 0 <= hcapa l - zlen (hits l) ->
  exists r h' f, fl_loop h g l fs = Ret (r, h', f) /\ freed base h' f r (named fs (hblk l) (hcapa l - zlen (hits l)) (script h)).
Proof.
  induction fs as [|[| |] fs IH]; intros h base g l G S O B C; cbn [fl_loop named].
  - do 3 eexists. split; [reflexivity|]. split; [reflexivity|]. split.
    + destruct (fl_free_ok h base (mkHfl (Some l) g)) as (h2 & E & [S2 P2]); [unfold flown; cbn; rewrite (nn1 _ G); exact O|]. eauto.
    + cbn. split; split; intros X; try congruence. now destruct X.
  - now apply IH.
  - unfold globfree. destruct (hfree_ok h base (owned l) g) as (h1 & -> & O1 & _). { eapply owns_perm; [|exact O]. apply Permutation_app_comm. } cbn [bind]. do 3 eexists. split; [reflexivity|]. split; [reflexivity|]. split.
    + destruct (fl_free_ok h1 base (mkHfl (Some l) NULL)) as (h2 & E & [S2 P2]); [unfold flown; cbn; rewrite app_nil_r; exact O1|]. eauto.
    + cbn. split; split; intros X; try congruence; auto. now destruct X.
  - destruct (sb_add_ok _ _ _ _ l (1, 1) O) as (ok & h1 & l1 & E1 & O1 & S1 & I1 & _). rewrite E1. cbn [bind]. destruct (add_script _ _ _ _ _ _ _ (nxt_pos _ _ _ O) E1) as [K1 X1].
    destruct (Z.eqb_spec (hcapa l - zlen (hits l)) 0) as [R|R].
    + replace (zlen (hits l) =? hcapa l) with true in X1 by lia. destruct X1 as (-> & S3 & C1 & _). destruct (granted (script h)).
      * destruct (IH h1 base g l1 G ltac:(congruence) O1 ltac:(lia)) as (r & h' & f & E & F). { rewrite I1, items_len. lia. } exists r, h', f. split; [exact E|]. rewrite K1, S3 in F. replace (hcapa l1 - zlen (hits l1)) with (hblk l - 1) in F by (rewrite I1, items_len; lia). exact F.
      * assert (F1 : ~ In (hself l) base). { apply (own_notin h1 base _ (nn (hbuf l1) ++ [g])). unfold owned in O1. rewrite S1, (nn1 _ S) in O1. exact O1. }
        unfold owned in O1. rewrite S1 in O1 |- *. rewrite (nn1 _ S) in O1. destruct (hfree_ok h1 base (nn (hbuf l1) ++ [g]) (hself l)) as (h2 & -> & O2 & _); [exact O1|]. cbn [bind]. unfold globfree.
        destruct (hfree_ok h2 base (nn (hbuf l1)) g) as (h3 & -> & O3 & _). { eapply owns_perm; [|exact O2]. apply Permutation_app_comm. } cbn [bind]. do 3 eexists. split; [reflexivity|]. split; [reflexivity|]. split.
        { apply (fl_free_ub h3 base _ l1); [reflexivity|exact O3|congruence|now rewrite S1]. }
        { cbn. split; split; intros X; try congruence; auto. now destruct X. }
    + replace (zlen (hits l) =? hcapa l) with false in X1 by lia. destruct X1 as (-> & -> & C1 & _).
      destruct (IH h base g l1 G ltac:(congruence) O1 ltac:(lia)) as (r & h' & f & E & F). { rewrite I1, items_len. lia. } exists r, h', f. split; [exact E|]. rewrite K1 in F. replace (hcapa l1 - zlen (hits l1)) with (hcapa l - zlen (hits l) - 1) in F by (rewrite I1, items_len; lia). exact F.
Qed.

(** the result and what filelist_free then does: all is freed, except that when there was no room for a name the list is freed twice *)
Theorem c80_filelist_exact h dots fs : sane h -> exists r h1 f, fl_search h dots fs = Ret (r, h1, f) /\ freed (live h) h1 f r (ends dots fs (script h)).
Proof.
  intros Sa. assert (O0 := owns_start _ Sa). assert (N := nxt_pos _ _ _ O0). unfold fl_search, ends. destruct (halloc_ok _ _ _ O0) as (g & h1 & E1 & H1). rewrite E1. destruct (halloc_script _ _ _ N E1) as [S1 Q1]. unfold NULL. rewrite Q1.
  destruct (granted (script h)); cbn [negb] in *.
  - destruct H1 as [(D & _)|(G & O1 & _)]; [lia|]. destruct (sb_new_ok (Z * Z) h1 (Z.max 1 (zlen fs)) _ _ O1) as (l & h2 & E2 & R). rewrite E2.
    unfold sb_new in E2. destruct (halloc h1) as [p h2'] eqn:A. destruct (halloc_script _ _ _ (nxt_pos _ _ _ O1) A) as [S2 Q2]. unfold NULL in E2. rewrite Q2, S1 in E2. rewrite S1 in S2. destruct (granted (tl (script h))); cbn [negb] in E2; injection E2 as <- <-.
    + destruct R as (_ & _ & _ & Sl & R). destruct (dotted_ok dots _ _ _ _ R) as (h3 & l3 & E3 & O3 & S3 & K3 & Q3 & D3); [cbn [hblk]; lia|cbn; lia|]. rewrite E3. cbn [bind]. cbn [hblk hcapa hits] in D3, K3. change (0 - zlen (@nil (Z * Z))) with 0 in D3. rewrite S2 in D3. rewrite D3.
      destruct (named_ok fs h3 (live h) g l3 G ltac:(congruence) O3 ltac:(rewrite K3; lia) Q3) as (r & h' & f & E & F). exists r, h', f. split; [exact E|]. rewrite K3 in F. exact F.
    + unfold globfree. destruct (hfree_ok _ _ _ _ R) as (h3 & -> & O3 & _). cbn [bind]. do 3 eexists. split; [reflexivity|]. split; [reflexivity|]. split.
      * destruct (fl_free_ok h3 (live h) (mkHfl None 0)) as (h4 & E & [S4 P4]); [exact O3|]. eauto.
      * cbn. split; split; intros X; try congruence; auto.
  - destruct H1 as [(_ & O1 & _)|(G & _)]; [|lia]. do 3 eexists. split; [reflexivity|]. split; [reflexivity|]. split.
    + destruct (fl_free_ok h1 (live h) (mkHfl None 0)) as (h4 & E & [S4 P4]); [exact O1|]. eauto.
    + cbn. split; split; intros X; try congruence; auto.
Qed.
Print Assumptions c80_filelist_exact.
(** so filelist_free is safe iff a name never found the list full with no memory to grow it *)
Theorem c80_filelist_safe h dots fs r h1 f : sane h -> fl_search h dots fs = Ret (r, h1, f) -> fl_free h1 f = UB <-> ends dots fs (script h) = NoRoom.
Proof.
  intros Sa E. destruct (c80_filelist_exact h dots fs Sa) as (r' & h1' & f' & E' & _ & F & _). rewrite E in E'. injection E' as <- <- <-.
  split; [|intros X; now rewrite X in F]. intros U. destruct (ends dots fs (script h)); try reflexivity; destruct F as (h2 & F & _); congruence.
Qed.
Print Assumptions c80_filelist_safe.
(* the block for the items is refused twice to the dots and granted to the first name; and refused to it too *)
Example c80_fl_ex : ends 2 [List; Skip; List] [true; true; false; false; true] = Done /\ ends 2 [List; Skip; List] [true; true; false; false; false] = NoRoom /\
  (let* (r, h1, f) := fl_search (mkHeap [7] 8 [true; true; false; false; false]) 2 [List; Skip; List] in Ret (r, live h1, fl_free h1 f)) = Ret (-1, [7], UB).
Proof. repeat split; vm_compute; reflexivity. Qed.
