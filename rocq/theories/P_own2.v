From Verif Require Import Base M_heap S_heap P_heap M_own D_own P_own.
From Coq Require Import Permutation.

Lemma free_all_ok ps : forall h base own, owns h base (ps ++ own) -> exists h', free_all h ps = Ret h' /\ owns h' base own.
Proof.
  induction ps as [|p ps IH]; intros h base own O; cbn [free_all]; [eauto|]. destruct (hfree_ok _ _ _ _ O) as (h1 & -> & O1 & _). cbn [bind]. now apply IH.
Qed.
Lemma dup_loop_ok xs : forall h base own done, owns h base own ->
  exists r h' ds, dup_loop h done xs = (r, h', done ++ combine ds (map snd xs) ++ zdrop (zlen ds) xs) /\ zlen ds <= zlen xs /\ owns h' base (ds ++ own) /\
    (r = -1 /\ zlen ds = zlen xs \/ r = zlen done + zlen ds /\ zlen ds < zlen xs).
Proof.
  induction xs as [|[p n] xs IH]; intros h base own done O; cbn [dup_loop].
  - exists (-1), h, []. rewrite app_nil_r. cbn. split; [reflexivity|]. split; [lia|]. auto.
  - unfold h_strdup, NULL. destruct (halloc_ok _ _ _ O) as (d & h1 & -> & [(-> & O1 & _)|(D & O1 & _)]).
    + exists (zlen done), h1, []. change (0 =? 0) with true. cbn iota. cbn [combine app]. split; [reflexivity|]. zl. zpos. split; [lia|]. split; [exact O1|]. right. lia.
    + replace (d =? 0) with false by lia. destruct (IH h1 base (d :: own) (done ++ [(d, n)]) O1) as (r & h2 & ds & -> & L & O2 & R).
      exists r, h2, (d :: ds). split.
      * f_equal. rewrite <- app_assoc. cbn [map combine app fst snd]. do 3 f_equal. rewrite zlen_cons. zpos. unfold zdrop. replace (Z.to_nat (1 + zlen ds)) with (S (Z.to_nat (zlen ds))) by lia. reflexivity.
      * zl. split; [lia|]. split; [eapply owns_perm; [|exact O2]; symmetry; apply Permutation_middle|]. lia.
Qed.
Lemma freestrings_ok xs : forall h base own done, owns h base (concat (map (fun x => nn (fst x)) xs) ++ own) ->
  exists h', freestrings_loop h done xs = Ret (h', done ++ repeat (0, 0) (length xs)) /\ owns h' base own.
Proof.
  induction xs as [|[p n] xs IH]; intros h base own done O; cbn [freestrings_loop].
  - exists h. rewrite app_nil_r. auto.
  - cbn [map concat fst] in O. rewrite <- app_assoc in O. destruct (free_nn _ _ _ _ O) as (h1 & E & O1 & _).
    assert (X : (if p =? NULL then Ret h else hfree h p) = Ret h1). { unfold NULL. destruct (Z.eqb_spec p 0) as [->|]; [rewrite hfree_null in E|]; auto. }
    rewrite X. cbn [bind]. destruct (IH h1 base own (done ++ [(NULL, 0)]) O1) as (h2 & -> & O2). exists h2. rewrite <- app_assoc. auto.
Qed.
Lemma spl_freestrings_ok h base own (l : hspl) : owns h base (concat (map (fun x => nn (fst x)) (hits l)) ++ owned l ++ own) ->
  exists h' l', spl_freestrings h l = Ret (h', l') /\ owns h' base (owned l' ++ own) /\ owned l' = owned l /\ hits l' = repeat (0, 0) (length (hits l)).
Proof.
  intros O. unfold spl_freestrings. destruct (freestrings_ok _ _ _ _ [] O) as (h' & -> & O'). cbn [bind]. do 2 eexists. split; [reflexivity|]. auto.
Qed.
Lemma spl_freeall_ok h base own (l : hspl) : owns h base (concat (map (fun x => nn (fst x)) (hits l)) ++ owned l ++ own) -> exists h', spl_freeall h l = Ret h' /\ owns h' base own.
Proof.
  intros O. unfold spl_freeall. destruct (spl_freestrings_ok _ _ _ _ O) as (h' & l' & -> & O' & _). cbn [bind]. now apply (sb_free_ok _ _ _ _ _ O').
Qed.
Lemma nns_all ds : (forall p, In p ds -> p <> 0) -> forall (ns : list Z), length ns = length ds -> concat (map (fun x => nn (fst x)) (combine ds ns)) = ds.
Proof.
  induction ds as [|d ds IH]; intros H ns L; destruct ns as [|n ns]; try discriminate; cbn; [reflexivity|]. rewrite nn1 by (apply H; now left). cbn. f_equal. apply IH; [|now injection L]. intros p I. apply H. now right.
Qed.
Lemma add_strdup_ok h base own (l : hspl) n : owns h base (owned l ++ own) ->
  exists ok h' l', spl_add_strdup h l n = Ret (ok, h', l') /\ hself l' = hself l /\
    if ok : bool then exists p, p <> 0 /\ hits l' = hits l ++ [(p, n)] /\ owns h' base (p :: owned l' ++ own)
    else hits l' = hits l /\ exists leak, zlen leak <= 1 /\ owns h' base (leak ++ owned l' ++ own).
Proof.
  intros O. unfold spl_add_strdup, h_strdup, NULL. destruct (halloc_ok _ _ _ O) as (d & h1 & -> & [(-> & O1 & _)|(D & O1 & _)]).
  - exists false, h1, l. cbn. split; [reflexivity|]. split; auto. split; auto. exists []. split; [zlia|exact O1].
  - replace (d =? 0) with false by lia. destruct (sb_add_ok _ h1 base (d :: own) l (d, n)) as (ok & h2 & l2 & -> & O2 & S2 & I2 & _).
    { eapply owns_perm; [|exact O1]. apply Permutation_middle. }
    exists ok, h2, l2. split; [reflexivity|]. split; [exact S2|]. assert (O3 : owns h2 base (d :: owned l2 ++ own)) by (eapply owns_perm; [|exact O2]; symmetry; apply Permutation_middle). destruct ok.
    + exists d. auto.
    + split; [exact I2|]. exists [d]. split; [zlia|exact O3].
Qed.
(** every failed addition leaks at most one block *)
Lemma spl_adds_ok ns : forall h base own (l : hspl), owns h base (owned l ++ own) ->
  exists oks h' l' ps leak, spl_adds h l ns = Ret (oks, h', l') /\ length oks = length ns /\ hself l' = hself l /\
    (forall p, In p ps -> p <> 0) /\ hits l' = hits l ++ combine ps (map snd (filter fst (combine oks ns))) /\ length ps = length (filter (fun b => b) oks) /\
    zlen leak <= zlen (filter negb oks) /\ owns h' base (ps ++ leak ++ owned l' ++ own).
Proof.
  induction ns as [|n ns IH]; intros h base own l O; cbn [spl_adds].
  - exists [], h, l, [], []. cbn. rewrite app_nil_r. repeat split; auto; try apply O; try lia.
  - destruct (add_strdup_ok _ _ _ _ n O) as (ok & h1 & l1 & -> & S1 & R). cbn [bind]. destruct ok.
    + destruct R as (p & P & I1 & O1). destruct (IH h1 base (p :: own) l1) as (oks & h2 & l2 & ps & leak & -> & L & S2 & N2 & I2 & L2 & K & O2). { eapply owns_perm; [|exact O1]. apply Permutation_middle. }
      cbn [bind]. exists (true :: oks), h2, l2, (p :: ps), leak. split; [reflexivity|]. split; [cbn; lia|]. split; [congruence|]. split; [intros q [<-|I]; auto|]. cbn [combine filter fst map snd negb length].
      split; [rewrite I2, I1, <- app_assoc; reflexivity|]. split; [lia|]. split; [exact K|]. cbn [app]. eapply owns_perm; [|exact O2]. rewrite !app_assoc. symmetry. apply Permutation_middle.
    + destruct R as (I1 & lk & K1 & O1). destruct (IH h1 base (lk ++ own) l1) as (oks & h2 & l2 & ps & leak & -> & L & S2 & N2 & I2 & L2 & K & O2). { eapply owns_perm; [|exact O1]. rewrite !app_assoc. apply Permutation_app_tail, Permutation_app_comm. }
      cbn [bind]. exists (false :: oks), h2, l2, ps, (leak ++ lk). split; [reflexivity|]. split; [cbn; lia|]. split; [congruence|]. split; [exact N2|]. cbn [combine filter fst map snd negb length].
      split; [now rewrite I2, I1|]. split; [lia|]. split; [zl; lia|]. eapply owns_perm; [|exact O2]. apply Permutation_app_head. rewrite <- !app_assoc. apply Permutation_app_head. rewrite !app_assoc. apply Permutation_app_tail, Permutation_app_comm.
Qed.
(** stringlist *)
Lemma sl_add_dup_ok h base own (l : hsb Z) : owns h base (hits l ++ owned l ++ own) ->
  exists r h' l', sl_add_dup h l = Ret (r, h', l') /\ owns h' base (hits l' ++ owned l' ++ own) /\ (r = 1 /\ (exists x, hits l' = hits l ++ [x]) \/ r = 0 /\ hits l' = hits l).
Proof.
  intros O. unfold sl_add_dup, NULL. destruct (halloc_ok _ _ _ O) as (d & h1 & -> & [(-> & O1 & _)|(D & O1 & _)]).
  - exists 0, h1, l. cbn. auto.
  - replace (d =? 0) with false by lia. destruct (sb_add_ok _ h1 base (hits l ++ [d] ++ own) l d) as (ok & h2 & l2 & -> & O2 & S2 & I2 & _).
    { eapply owns_perm; [|exact O1]. perm. }
    cbn [bind]. destruct ok.
    + exists 1, h2, l2. split; [reflexivity|]. split; [|left; eauto]. rewrite I2. eapply owns_perm; [|exact O2]. perm.
    + destruct (hfree_ok h2 base (hits l2 ++ owned l2 ++ own) d) as (h3 & -> & O3 & _).
      { rewrite I2. eapply owns_perm; [|exact O2]. perm. }
      cbn [bind]. exists 0, h3, l2. split; [reflexivity|]. split; [exact O3|]. right. auto.
Qed.
Lemma sl_adds_ok n : forall h base own (l : hsb Z), owns h base (hits l ++ owned l ++ own) ->
  exists rs h' l', sl_adds h l n = Ret (rs, h', l') /\ length rs = n /\ owns h' base (hits l' ++ owned l' ++ own) /\ Forall (fun r => r = 0 \/ r = 1) rs /\ zlen (hits l') = zlen (hits l) + fold_right Z.add 0 rs.
Proof.
  induction n as [|n IH]; intros h base own l O; cbn [sl_adds].
  - exists [], h, l. cbn. repeat split; auto; try apply O. lia.
  - destruct (sl_add_dup_ok _ _ _ _ O) as (r & h1 & l1 & -> & O1 & R). cbn [bind]. destruct (IH _ _ _ _ O1) as (rs & h2 & l2 & -> & L & O2 & F & Z2). cbn [bind]. exists (r :: rs), h2, l2. split; [reflexivity|]. split; [cbn; lia|]. split; [exact O2|].
    split; [constructor; [lia|exact F]|]. cbn. destruct R as [[-> [x I]]|[-> I]]; rewrite I in Z2; [rewrite zlen_app in Z2; change (zlen [x]) with 1 in Z2|]; lia.
Qed.
Lemma sl_foreach_ok (l : hsb Z) fuel : forall it, 0 <= it <= zlen (hits l) -> (Z.to_nat (zlen (hits l) - it) < fuel)%nat ->
  sl_foreach_loop fuel l it (sl_get l it) = Ret (zdrop it (hits l)).
Proof.
  induction fuel as [|fuel IH]; intros it B F; [lia|]. cbn [sl_foreach_loop]. destruct (Z.ltb_spec it (zlen (hits l))) as [H|H].
  - replace (zlen (hits l) =? 0) with false by lia. rewrite IH by lia. cbn [bind]. f_equal. destruct (zsplit it (hits l)) as (a & c & E & L); [lia|]. destruct c as [|x c]; [rewrite E, app_nil_r in H; lia|].
    unfold sl_get. replace (it <? zlen (hits l)) with true by lia. rewrite E. subst it. rewrite zdrop_app_exact, znth_app_exact. replace (zlen a + 1) with (zlen (a ++ [x])) by (zl; lia). replace (a ++ x :: c) with ((a ++ [x]) ++ c) by (now rewrite <- app_assoc). now rewrite zdrop_app_exact.
  - replace it with (zlen (hits l)) by lia. now rewrite zdrop_all.
Qed.
(** splitting and replacing *)
Lemma split_adds_ok n : forall h base own (l : hspl), owns h base (owned l ++ own) -> exists h' l', split_adds h l n = Ret (h', l') /\ owns h' base (owned l' ++ own) /\ hself l' = hself l.
Proof.
  induction n as [|n IH]; intros h base own l O; cbn [split_adds]; [eauto|]. destruct (sb_add_ok _ _ _ _ l (1, 1) O) as (ok & h' & l' & -> & O' & S' & _). cbn [bind]. rewrite <- S'. now apply IH.
Qed.
Lemma h_split_ok h n base : owns h base [] -> exists r h', h_split h n = Ret (r, h') /\ match r with None => owns h' base [] | Some l => hself l <> 0 /\ owns h' base (owned l) end.
Proof.
  intros O. unfold h_split. destruct (sb_new_ok (Z * Z) h 16 _ _ O) as (r & h1 & -> & R). destruct r as [l|]; [|exists None, h1; auto]. destruct R as (_ & _ & _ & S & R). destruct (split_adds_ok n _ _ _ _ R) as (h2 & l2 & -> & O2 & S2). cbn [bind]. do 2 eexists. split; [reflexivity|]. rewrite app_nil_r in O2. split; [congruence|exact O2].
Qed.
Lemma h_replace_ok h n base : owns h base [] -> exists r h' leak, h_replace h n = Ret (r, h') /\ owns h' base (nn r ++ leak) /\ zlen leak <= 2 /\ (r <> 0 -> zlen leak <= 1).
Proof.
  intros O. unfold h_replace. destruct (h_split_ok h n _ O) as (r & h1 & -> & R). cbn [bind]. destruct r as [l|]; [|exists 0, h1, []; rewrite nn0; split; [reflexivity|]; split; [exact R|]; zlia].
  destruct R as [S R]. unfold NULL. destruct (halloc_ok _ _ _ R) as (d & h2 & -> & [(-> & O1 & _)|(D & O1 & _)]).
  - exists 0, h2, (owned l). split; [reflexivity|]. split; [exact O1|]. split; [|lia]. unfold owned, nn. destruct (_ =? 0), (_ =? 0); zlia.
  - replace (d =? 0) with false by lia. unfold owned in O1. rewrite (nn1 _ S) in O1. destruct (hfree_ok h2 base (d :: nn (hbuf l)) (hself l)) as (h3 & -> & O3 & _). { eapply owns_perm; [|exact O1]. apply perm_swap. }
    cbn [bind]. exists d, h3, (nn (hbuf l)). split; [reflexivity|]. rewrite (nn1 _ D). split; [exact O3|]. unfold nn. destruct (_ =? 0); zlia.
Qed.
(** when memory does not run out the block with the items of the list is always left behind *)
Lemma split_adds_keep n : forall h base own (l : hspl), owns h base (owned l ++ own) -> hbuf l <> 0 -> exists h' l', split_adds h l n = Ret (h', l') /\ hbuf l' <> 0.
Proof.
  induction n as [|n IH]; intros h base own l O B; cbn [split_adds]; [eauto|].
  destruct (sb_add_ok _ _ _ _ l (1, 1) O) as (ok & h' & l' & E & O' & S' & _). rewrite E. cbn [bind]. apply (IH _ _ _ _ O'). revert E. unfold sb_add, sb_grow.
  destruct (_ =? _); [|cbn [bind]; intros E; injection E as <- <- <-; exact B]. destruct (hrealloc h (hbuf l)) as [[t h2]| |]; cbn [bind]; try discriminate. unfold NULL. destruct (Z.eqb_spec t 0) as [->|T]; cbn [bind]; intros E; injection E as <- <- <-; auto.
Qed.
Lemma h_replace_leak h n base : owns h base [] -> script h = [] -> (0 < n)%nat -> exists r b h', h_replace h n = Ret (r, h') /\ r <> 0 /\ b <> 0 /\ owns h' base [r; b].
Proof.
  intros O S N. destruct n as [|n]; [lia|]. unfold h_replace, h_split, sb_new. destruct (halloc_ok _ _ _ O) as (p & h1 & E & [(-> & O1 & s & X)|(P & O1 & _)]); [congruence|]. rewrite E. assert (S1 : script h1 = []) by (revert E; unfold halloc; rewrite S; cbn; intros E; injection E as <- <-; reflexivity).
  unfold NULL. replace (p =? 0) with false by lia. cbn [split_adds]. set (l := mkHsb p 0 0 16 []).
  destruct (sb_add_ok _ h1 base [] l (1, 1)) as (ok & h2 & l2 & E2 & O2 & S2 & I2 & B2 & K). { rewrite app_nil_r. unfold owned. cbn. rewrite (nn1 _ P). exact O1. }
  rewrite E2. assert (ok = true) as -> by (apply K; rewrite S1; discriminate). cbn [bind]. specialize (B2 eq_refl eq_refl).
  assert (Sc : forall h, script h = [] -> forall h' q, halloc h = (q, h') -> script h' = []). { intros h0 X h' q. unfold halloc. rewrite X. cbn. intros Y. injection Y as <- <-. reflexivity. }
  assert (Sf : forall h h' p, hfree h p = Ret h' -> script h' = script h). { intros h0 h' q. unfold hfree. destruct (_ =? _); [congruence|]. destruct (existsb _ _); [|discriminate]. intros X. injection X as <-. reflexivity. }
  assert (Sa : forall h l h' l' ok, script h = [] -> sb_add h l (1, 1) = Ret (ok, h', l') -> script h' = []).
  { intros h0 l0 h' l' ok X. unfold sb_add, sb_grow. destruct (_ =? _); [|cbn; congruence]. unfold hrealloc. destruct (_ =? NULL).
    - destruct (halloc h0) as [q hq] eqn:Q. apply (Sc _ X) in Q. cbn [bind]. destruct (_ =? _); cbn; congruence.
    - destruct (existsb _ _); [|discriminate]. destruct (halloc h0) as [q hq] eqn:Q. apply (Sc _ X) in Q. destruct (_ =? _) eqn:Y; [cbn; try rewrite Y; cbn; congruence|]. destruct (hfree hq _) as [hf| |] eqn:Z; try discriminate. apply Sf in Z. cbn [bind]. rewrite Y. cbn. congruence. }
  assert (Sd : forall n h l h' l', script h = [] -> split_adds h l n = Ret (h', l') -> script h' = []).
  { intros k. induction k as [|k IH]; intros h0 l0 h' l' X; cbn [split_adds]; [congruence|]. destruct (sb_add h0 l0 (1, 1)) as [[[o ha] la]| |] eqn:Z; try discriminate. cbn [bind]. apply IH. eapply Sa; eauto. }
  assert (S3 := Sa _ _ _ _ _ S1 E2). destruct (split_adds_ok n _ _ _ _ O2) as (h3 & l3 & E3 & O3 & S3'). destruct (split_adds_keep n _ _ _ _ O2 B2) as (h3' & l3' & E3' & B3). rewrite E3 in E3'. injection E3' as <- <-. rewrite E3. cbn [bind].
  assert (S4 := Sd _ _ _ _ _ S3 E3). rewrite app_nil_r in O3. destruct (halloc_ok _ _ _ O3) as (d & h4 & -> & [(-> & O4 & s & X)|(D & O4 & _)]); [congruence|]. replace (d =? 0) with false by lia. cbn [bind].
  unfold owned in O4. rewrite S3', S2 in *. cbn [hself] in *. change (hself l) with p in *. rewrite (nn1 _ P), (nn1 _ B3) in O4. destruct (hfree_ok h4 base [d; hbuf l3] p) as (h5 & -> & O5 & _). { eapply owns_perm; [|exact O4]. apply perm_swap. }
  cbn [bind]. exists d, (hbuf l3), h5. auto.
Qed.
