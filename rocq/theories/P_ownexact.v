From Verif Require Import Base M_heap S_heap P_heap M_own D_own P_own P_own2 S_ownexact.
From Coq Require Import Permutation.

Lemma halloc_script h q h' : 0 < nxt h -> halloc h = (q, h') -> script h' = tl (script h) /\ (q =? 0) = negb (granted (script h)).
Proof. intros N. unfold halloc, granted, NULL. destruct (script h) as [|[|] s]; intros E; injection E as <- <-; cbn; split; try reflexivity; lia. Qed.
Lemma hfree_script h p h' : hfree h p = Ret h' -> script h' = script h.
Proof. unfold hfree. destruct (p =? NULL); [congruence|]. destruct (existsb _ _); [|discriminate]. intros E. injection E as <-. reflexivity. Qed.
Lemma hrealloc_script h p q h' : 0 < nxt h -> hrealloc h p = Ret (q, h') -> script h' = tl (script h) /\ (q =? 0) = negb (granted (script h)).
Proof.
  intros N. unfold hrealloc. destruct (p =? NULL); [intros E; injection E as E; now apply halloc_script|]. destruct (existsb _ _); [|discriminate].
  destruct (halloc h) as [r h1] eqn:A. destruct (halloc_script _ _ _ N A) as [S1 Q1]. unfold NULL. destruct (Z.eqb_spec r 0) as [->|R]; [intros E; injection E as <- <-; auto|].
  destruct (hfree h1 p) as [h2| |] eqn:F; cbn [bind]; try discriminate. intros E. injection E as <- <-. rewrite (hfree_script _ _ _ F). split; [exact S1|]. rewrite <- Q1. lia.
Qed.
Lemma add_script A h (l : hsb A) x ok h' l' : 0 < nxt h -> sb_add h l x = Ret (ok, h', l') -> hblk l' = hblk l /\
  if zlen (hits l) =? hcapa l then ok = granted (script h) /\ script h' = tl (script h) /\ hcapa l' = (if ok then hcapa l + hblk l else hcapa l) /\ (hbuf l' =? 0) = (if ok then false else hbuf l =? 0)
  else ok = true /\ h' = h /\ hcapa l' = hcapa l /\ hbuf l' = hbuf l.
Proof.
  intros N. unfold sb_add, sb_grow. destruct (zlen (hits l) =? hcapa l).
  - destruct (hrealloc h (hbuf l)) as [[t h1]| |] eqn:R; cbn [bind]; try discriminate. destruct (hrealloc_script _ _ _ _ N R) as [S1 Q1]. unfold NULL. destruct (t =? 0) eqn:T; cbn [bind]; intros E; injection E as <- <- <-; cbn; split; auto; (split; [destruct (granted (script h)); cbn in Q1; congruence|]); split; auto; split; auto.
  - cbn [bind]. intros E. injection E as <- <- <-. cbn. auto.
Qed.

Lemma nxt_pos h base own : owns h base own -> 0 < nxt h.
Proof. intros [(_ & _ & H) _]. exact H. Qed.

Lemma adds_fates ns : forall h base own (l : hspl), owns h base (owned l ++ own) -> 0 < hblk l -> 0 <= hcapa l - zlen (hits l) ->
  let fs := fates (length ns) (hblk l) (hcapa l - zlen (hits l)) (script h) in
  exists h' l' ps leak, spl_adds h l ns = Ret (map is_stored fs, h', l') /\ (forall p, In p ps -> p <> 0) /\
    hits l' = hits l ++ combine ps (map snd (filter (fun x => is_stored (fst x)) (combine fs ns))) /\
    zlen ps = zlen (filter is_stored fs) /\ zlen leak = zlen (filter is_lost fs) /\ owns h' base (ps ++ leak ++ owned l' ++ own).
Proof.
  induction ns as [|n ns IH]; intros h base own l O B C; cbn [length fates spl_adds].
  - cbv zeta. exists h, l, [], []. cbn. rewrite app_nil_r. repeat split; auto; apply O.
  - unfold spl_add_strdup, h_strdup, NULL. assert (N := nxt_pos _ _ _ O). destruct (halloc_ok _ _ _ O) as (d & h1 & E1 & H1). destruct (halloc_script _ _ _ N E1) as [S1 Q1]. rewrite E1.
    destruct (granted (script h)) eqn:G; cbn [negb] in Q1; rewrite Q1.
    + assert (D : d <> 0) by lia. destruct H1 as [(D0 & _)|(_ & O1 & _)]; [contradiction|].
      assert (O1' : owns h1 base (owned l ++ d :: own)) by (eapply owns_perm; [|exact O1]; apply Permutation_middle).
      destruct (sb_add_ok _ h1 base (d :: own) l (d, n) O1') as (ok & h2 & l2 & E2 & O2 & S2 & I2 & _). rewrite E2. cbn [bind].
      destruct (add_script _ _ _ _ _ _ _ (nxt_pos _ _ _ O1) E2) as [K2 X2]. rewrite S1 in X2.
      assert (LI : forall xs (y : Z * Z), zlen (xs ++ [y]) = zlen xs + 1) by (intros; now rewrite zlen_app).
      destruct (Z.eqb_spec (hcapa l - zlen (hits l)) 0) as [R|R].
      * replace (zlen (hits l) =? hcapa l) with true in X2 by lia. destruct X2 as (-> & S3 & C2 & _). destruct (granted (tl (script h))) eqn:G2.
        { destruct (IH h2 base (d :: own) l2 O2 ltac:(lia)) as (h3 & l3 & ps & leak & E3 & NZ & I3 & LP & LL & O3). { rewrite I2, LI. lia. }
          rewrite S3 in *. rewrite K2 in *. replace (hcapa l2 - zlen (hits l2)) with (hblk l - 1) in * by (rewrite I2, LI; lia). rewrite E3. cbn [bind]. exists h3, l3, (d :: ps), leak. cbn [map is_stored combine filter is_lost fst snd].
          split; [reflexivity|]. split; [intros q [<-|I]; auto|]. split; [rewrite I3, I2, <- app_assoc; reflexivity|]. split; [rewrite !zlen_cons; lia|]. split; [exact LL|]. eapply owns_perm; [|exact O3]. perm. }
        { destruct (IH h2 base (d :: own) l2 O2 ltac:(lia)) as (h3 & l3 & ps & leak & E3 & NZ & I3 & LP & LL & O3). { rewrite I2. lia. }
          rewrite S3 in *. rewrite K2 in *. replace (hcapa l2 - zlen (hits l2)) with 0 in * by (rewrite I2; lia). rewrite E3. cbn [bind]. exists h3, l3, ps, (d :: leak). cbn [map is_stored combine filter is_lost fst snd].
          split; [reflexivity|]. split; [exact NZ|]. split; [rewrite I3, I2; reflexivity|]. split; [exact LP|]. split; [rewrite !zlen_cons; lia|]. eapply owns_perm; [|exact O3]. perm. }
      * replace (zlen (hits l) =? hcapa l) with false in X2 by lia. destruct X2 as (-> & -> & C2 & _).
        destruct (IH h1 base (d :: own) l2 O2 ltac:(lia)) as (h3 & l3 & ps & leak & E3 & NZ & I3 & LP & LL & O3). { rewrite I2, LI. lia. }
        rewrite S1 in *. rewrite K2 in *. replace (hcapa l2 - zlen (hits l2)) with (hcapa l - zlen (hits l) - 1) in * by (rewrite I2, LI; lia). rewrite E3. cbn [bind]. exists h3, l3, (d :: ps), leak. cbn [map is_stored combine filter is_lost fst snd].
        split; [reflexivity|]. split; [intros q [<-|I]; auto|]. split; [rewrite I3, I2, <- app_assoc; reflexivity|]. split; [rewrite !zlen_cons; lia|]. split; [exact LL|]. eapply owns_perm; [|exact O3]. perm.
    + destruct H1 as [(_ & O1 & _)|(D & _)]; [|lia]. cbn [bind]. destruct (IH h1 base own l O1 B C) as (h3 & l3 & ps & leak & E3 & NZ & I3 & LP & LL & O3). rewrite S1 in *. rewrite E3. cbn [bind]. exists h3, l3, ps, leak. cbn [map is_stored combine filter is_lost fst snd]. auto 10.
Qed.
Lemma pieces_ok n : forall h base own (l : hspl), owns h base (owned l ++ own) -> hblk l = 16 -> 0 <= hcapa l - zlen (hits l) ->
  exists h' l', split_adds h l n = Ret (h', l') /\ owns h' base (owned l' ++ own) /\ hself l' = hself l /\
    pieces n (hcapa l - zlen (hits l)) (negb (hbuf l =? 0)) (script h) = (negb (hbuf l' =? 0), script h').
Proof.
  induction n as [|n IH]; intros h base own l O B C; cbn [pieces split_adds]; [eauto 10|]. destruct (sb_add_ok _ _ _ _ l (1, 1) O) as (ok & h1 & l1 & E1 & O1 & S1 & I1 & _). rewrite E1. cbn [bind].
  destruct (add_script _ _ _ _ _ _ _ (nxt_pos _ _ _ O) E1) as [K1 X1]. assert (LI : forall xs (y : Z * Z), zlen (xs ++ [y]) = zlen xs + 1) by (intros; now rewrite zlen_app).
  destruct (Z.eqb_spec (hcapa l - zlen (hits l)) 0) as [R|R].
  - replace (zlen (hits l) =? hcapa l) with true in X1 by lia. destruct X1 as (-> & S3 & C1 & D1). destruct (granted (script h)) eqn:G.
    + destruct (IH h1 base own l1 O1 ltac:(lia)) as (h2 & l2 & E2 & O2 & S2 & P2). { rewrite I1, LI. lia. } exists h2, l2. split; [exact E2|]. split; [exact O2|]. split; [congruence|]. rewrite <- P2, D1, S3. f_equal. rewrite I1, LI. lia.
    + destruct (IH h1 base own l1 O1 ltac:(lia)) as (h2 & l2 & E2 & O2 & S2 & P2). { rewrite I1. lia. } exists h2, l2. split; [exact E2|]. split; [exact O2|]. split; [congruence|]. rewrite <- P2, D1, S3. f_equal. rewrite I1. lia.
  - replace (zlen (hits l) =? hcapa l) with false in X1 by lia. destruct X1 as (-> & -> & C1 & D1).
    destruct (IH h base own l1 O1 ltac:(lia)) as (h2 & l2 & E2 & O2 & S2 & P2). { rewrite I1, LI. lia. } exists h2, l2. split; [exact E2|]. split; [exact O2|]. split; [congruence|]. rewrite <- P2, D1. f_equal. rewrite I1, LI. lia.
Qed.
