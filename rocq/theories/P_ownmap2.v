From Verif Require Import Base M_heap S_heap P_heap M_own P_own P_own2 M_ownmap D_ownmap P_ownmap D_ownmap2.
From Coq Require Import Permutation.

(** when every request succeeds so does the growth; what a request leaves of the script *)
Definition left_of (h h' : heap) : Prop := forall b, In b (script h') -> In b (script h).
Lemma left_refl h : left_of h h. Proof. intros b; auto. Qed.
Lemma left_trans a b c : left_of a b -> left_of b c -> left_of a c. Proof. unfold left_of. auto. Qed.
Lemma halloc_left h q h' : halloc h = (q, h') -> left_of h h'.
Proof.
  unfold halloc, left_of. destruct (script h) as [|[|] s] eqn:E; intros X; injection X as <- <-; cbn [script tl]; intros b I; cbn; auto.
Qed.
Lemma hfree_left h p h' : hfree h p = Ret h' -> left_of h h'.
Proof. unfold hfree. destruct (p =? NULL); [intros X; injection X as <-; apply left_refl|]. destruct (existsb _ _); [|discriminate]. intros X. injection X as <-. intros b; auto. Qed.
Lemma hrealloc_left h p q h' : hrealloc h p = Ret (q, h') -> left_of h h' /\ (q = NULL -> sane h -> In false (script h)).
Proof.
  assert (N : forall q h', halloc h = (q, h') -> q = NULL -> sane h -> In false (script h)).
  { intros q' h1 E Q (_ & _ & X). unfold halloc in E. destruct (script h) as [|[|] s]; injection E as <- <-; unfold NULL in Q; cbn; (lia || auto). }
  unfold hrealloc. destruct (p =? NULL).
  - intros X. destruct (halloc h) as [q1 h1] eqn:A. injection X as <- <-. split; [eapply halloc_left; eauto|eauto].
  - destruct (existsb _ _); [|discriminate]. destruct (halloc h) as [q1 h1] eqn:A. destruct (q1 =? NULL) eqn:Q.
    + intros X. injection X as <- <-. split; [eapply halloc_left; eauto|]. intros _. apply (N _ _ eq_refl). lia.
    + destruct (hfree h1 p) as [h2| |] eqn:F; cbn [bind]; [|discriminate..]. intros X. injection X as <- <-. split; [eapply left_trans; [eapply halloc_left; eauto|eapply hfree_left; eauto]|]. intros. lia.
Qed.
Lemma tg_insert_left A h (l : htg A) x pos ok h' l' : tg_insert h l x pos = Ret (ok, h', l') -> left_of h h' /\ (ok = false -> sane h -> In false (script h)).
Proof.
  unfold tg_insert, tg_grow. destruct (_ =? tcapa l).
  - destruct (hrealloc h (tbuf l)) as [[t h1]| |] eqn:R; cbn [bind]; [|discriminate..]. destruct (hrealloc_left _ _ _ _ R) as [L F]. destruct (t =? NULL) eqn:T; cbn [bind]; intros X; injection X as <- <- <-; (split; [exact L|]); [|discriminate]. intros _. apply F. lia.
  - cbn [bind]. intros X. injection X as <- <- <-. split; [apply left_refl|discriminate].
Qed.

(** keys and values in step *)
Definition instep (b : hbm) : Prop :=
  match bvals b with
  | VTg l => zlen (tits l) = zlen (stored_keys b)
  | VTgi i l => zlen (tits i) = zlen (stored_keys b) /\ NoDup (tits i) /\ Forall (fun j => 0 <= j < zlen (tits l)) (tits i)
  end.
Lemma instep_len b : instep b -> zlen (values b) = zlen (stored_keys b).
Proof. unfold instep, values. destruct (bvals b); [auto|]. intros [H _]. rewrite <- H. unfold zlen. now rewrite map_length. Qed.
Lemma map_znth_app xs ys (is : list Z) : Forall (fun j => 0 <= j < zlen xs) is -> map (znth 0 (xs ++ ys)) is = map (znth 0 xs) is.
Proof. intros F. apply map_ext_in. intros j I. rewrite Forall_forall in F. specialize (F j I). unfold znth. rewrite app_nth1; [reflexivity|]. unfold zlen in F. lia. Qed.

Lemma vals_insert_view h base own b x pos : owns h base (vown (bvals b) ++ own) -> instep b -> 0 <= pos <= zlen (stored_keys b) ->
  exists ok h' v', vals_insert h (bvals b) x pos = Ret (ok, h', v') /\ owns h' base (vown v' ++ own) /\
    (if ok : bool then forall keys, zlen (tits keys) = zlen (stored_keys b) + 1 -> instep (mkHbm keys v') /\ values (mkHbm keys v') = ztake pos (values b) ++ x :: zdrop pos (values b)
     else In false (script h) /\ forall keys, zlen (tits keys) = zlen (stored_keys b) -> instep (mkHbm keys v') /\ values (mkHbm keys v') = values b).
Proof.
  intros O I P. assert (Sn : sane h) by apply O. unfold instep, values, stored_keys in *. destruct (bvals b) as [l|i l] eqn:Eb; cbn [vals_insert vown bkeys bvals] in *.
  - destruct (tg_insert_ok _ _ _ _ l x pos O) as (ok & h' & l' & E & O' & T). rewrite E. destruct (tg_insert_left _ _ _ _ _ _ _ _ E) as [_ Fl]. cbn [bind]. exists ok, h', (VTg l'). split; [reflexivity|]. split; [exact O'|].
    destruct ok; [|split; [auto|]]; intros keys K; cbn [tits]; rewrite T; (split; [|reflexivity]); [|lia]. revert K. rewrite zlen_app, zlen_cons, zlen_ztake, zlen_zdrop by lia. lia.
  - destruct I as (Li & Nd & Fa). unfold tgi_insert, tg_add.
    destruct (tg_insert_ok _ h base (nn (tbuf i) ++ own) l x (zlen (tits l))) as (ok & h1 & l1 & E1 & O1 & I1). { eapply owns_perm; [|exact O]. perm. }
    rewrite E1. destruct (tg_insert_left _ _ _ _ _ _ _ _ E1) as [Lf Fl]. cbn [bind]. destruct ok; cbn [negb].
    + rewrite ztake_all, zdrop_all in I1 by lia. assert (Ll : zlen (tits l1) - 1 = zlen (tits l)) by (rewrite I1; zl; lia). rewrite Ll.
      destruct (tg_insert_ok _ h1 base (nn (tbuf l1) ++ own) i (zlen (tits l)) pos) as (ok & h2 & i2 & E2 & O2 & I2). { eapply owns_perm; [|exact O1]. perm. }
      rewrite E2. destruct (tg_insert_left _ _ _ _ _ _ _ _ E2) as [_ Fl2]. cbn [bind].
      destruct ok.
      * exists true, h2, (VTgi i2 l1). split; [reflexivity|]. split; [cbn [vown]; eapply owns_perm; [|exact O2]; perm|]. intros keys K. cbn [tits] in *. rewrite I2, I1.
        assert (Pm : Permutation (zlen (tits l) :: tits i) (ztake pos (tits i) ++ zlen (tits l) :: zdrop pos (tits i))).
        { transitivity (zlen (tits l) :: ztake pos (tits i) ++ zdrop pos (tits i)); [now rewrite ztake_zdrop|]. apply Permutation_middle. }
        split; [split; [|split]|].
        -- rewrite zlen_app, zlen_cons, zlen_ztake, zlen_zdrop by lia. lia.
        -- eapply Permutation_NoDup; [exact Pm|]. constructor; [|exact Nd]. intros In_. rewrite Forall_forall in Fa. specialize (Fa _ In_). lia.
        -- eapply Permutation_Forall; [exact Pm|]. constructor; [zl; zpos; lia|]. eapply Forall_impl; [|exact Fa]. cbn. intros; zl; lia.
        -- rewrite map_app. cbn [map]. rewrite znth_app_exact. rewrite !map_znth_app.
           ++ unfold ztake, zdrop. now rewrite firstn_map, skipn_map.
           ++ eapply incl_Forall; [|exact Fa]. intros y Y. rewrite <- (ztake_zdrop pos (tits i)). apply in_or_app. auto.
           ++ eapply incl_Forall; [|exact Fa]. intros y Y. rewrite <- (ztake_zdrop pos (tits i)). apply in_or_app. auto.
      * do 3 eexists. split; [reflexivity|]. split; [cbn [vown tbuf]; eapply owns_perm; [|exact O2]; perm|]. split; [apply Lf, Fl2; [reflexivity|apply O1]|]. intros keys K. cbn [tits] in *. rewrite I2, I1, ztake_app_exact. repeat split; auto. lia.
    + do 3 eexists. split; [reflexivity|]. split; [cbn [vown]; eapply owns_perm; [|exact O1]; perm|]. split; [auto|]. intros keys K. cbn [tits] in *. rewrite I1. repeat split; auto. lia.
Qed.
Lemma nocheck_view h base own b pos k v : owns h base (bmown b ++ own) -> instep b -> 0 <= pos <= zlen (stored_keys b) ->
  exists r h' b', bm_insert_nocheck h b pos k v = Ret (r, h', b') /\ owns h' base (bmown b' ++ own) /\ instep b' /\
    (r = pos /\ stored_keys b' = ztake pos (stored_keys b) ++ k :: zdrop pos (stored_keys b) /\ values b' = ztake pos (values b) ++ v :: zdrop pos (values b) \/
     r = -1 /\ stored_keys b' = stored_keys b /\ values b' = values b /\ In false (script h)).
Proof.
  intros O I P. assert (Sn : sane h) by apply O. unfold bm_insert_nocheck, bmown in *.
  destruct (tg_insert_ok _ h base (vown (bvals b) ++ own) (bkeys b) k pos) as (ok & h1 & k1 & E1 & O1 & T1). { eapply owns_perm; [|exact O]. perm. }
  rewrite E1. destruct (tg_insert_left _ _ _ _ _ _ _ _ E1) as [Lf Fl]. cbn [bind]. destruct ok; cbn [negb].
  - destruct (vals_insert_view h1 base (nn (tbuf k1) ++ own) b v pos) as (ok & h2 & v2 & -> & O2 & V); auto. { eapply owns_perm; [|exact O1]. perm. }
    cbn [bind]. fold (stored_keys b) in T1. destruct ok.
    + do 3 eexists. split; [reflexivity|]. split; [cbn [bkeys bvals]; eapply owns_perm; [|exact O2]; perm|]. destruct (V k1) as [V1 V2]. { rewrite T1, zlen_app, zlen_cons, zlen_ztake, zlen_zdrop by lia. lia. }
      split; [exact V1|]. left. split; [reflexivity|]. split; [exact T1|exact V2].
    + destruct V as [Fs V]. do 3 eexists. split; [reflexivity|]. split; [cbn [bkeys bvals tg_delete tbuf]; eapply owns_perm; [|exact O2]; perm|].
      assert (D : tits (tg_delete k1 pos) = stored_keys b).
      { unfold tg_delete. cbn [tits]. rewrite T1. replace (ztake pos (ztake pos (stored_keys b) ++ k :: zdrop pos (stored_keys b))) with (ztake pos (stored_keys b)).
        - replace (zdrop (pos + 1) _) with (zdrop pos (stored_keys b)); [apply ztake_zdrop|]. change (k :: zdrop pos (stored_keys b)) with ([k] ++ zdrop pos (stored_keys b)). rewrite app_assoc. replace (pos + 1) with (zlen (ztake pos (stored_keys b) ++ [k])) by (rewrite zlen_app, zlen_ztake by lia; reflexivity). now rewrite zdrop_app_exact.
        - pose proof (ztake_app_exact (ztake pos (stored_keys b)) (k :: zdrop pos (stored_keys b))) as X. rewrite zlen_ztake in X by lia. now rewrite X. }
      destruct (V (tg_delete k1 pos)) as [V1 V2]. { now rewrite D. } split; [exact V1|]. right. split; [reflexivity|]. split; [exact D|]. split; [exact V2|]. apply Lf, Fs.
  - do 3 eexists. split; [reflexivity|]. split; [cbn [bkeys bvals]; eapply owns_perm; [|exact O1]; perm|]. assert (V : values (mkHbm k1 (bvals b)) = values b) by reflexivity.
    assert (K : stored_keys (mkHbm k1 (bvals b)) = stored_keys b) by exact T1. split. { unfold instep in *. cbn [bvals] in *. now rewrite K. } right. auto.
Qed.
Lemma znth_replace (xs : list Z) j x j' : 0 <= j < zlen xs -> 0 <= j' < zlen xs -> znth 0 (ztake j xs ++ x :: zdrop (j + 1) xs) j' = if j' =? j then x else znth 0 xs j'.
Proof.
  intros H H'. destruct (zsplit j xs) as (a & c & E & L); [lia|]. destruct c as [|y c]; [rewrite E, app_nil_r in H; lia|]. subst xs.
  replace (ztake j (a ++ y :: c)) with a by (rewrite <- L; now rewrite ztake_app_exact). replace (zdrop (j + 1) (a ++ y :: c)) with c.
  2: { change (a ++ y :: c) with (a ++ [y] ++ c). rewrite app_assoc. replace (j + 1) with (zlen (a ++ [y])) by (zl; lia). now rewrite zdrop_app_exact. }
  destruct (j' =? j) eqn:J; [replace j' with (zlen a) by lia; apply znth_app_exact|].
  unfold znth. destruct (Z_lt_ge_dec j' (zlen a)).
  - rewrite !app_nth1 by (unfold zlen in *; lia). reflexivity.
  - rewrite !app_nth2 by (unfold zlen in *; lia). destruct (Z.to_nat j' - length a)%nat eqn:N; [unfold zlen in *; lia|reflexivity].
Qed.
Lemma vals_set_view b x pos : instep b -> 0 <= pos < zlen (stored_keys b) ->
  instep (mkHbm (bkeys b) (vals_set (bvals b) x pos)) /\ values (mkHbm (bkeys b) (vals_set (bvals b) x pos)) = ztake pos (values b) ++ x :: zdrop (pos + 1) (values b).
Proof.
  intros I P. unfold instep, values, stored_keys in *. cbn [bkeys bvals] in *. destruct (bvals b) as [l|i l]; cbn [vals_set tits tg_set].
  - split; [|reflexivity]. rewrite zlen_app, zlen_cons, zlen_ztake, zlen_zdrop by lia. lia.
  - destruct I as (Li & Nd & Fa). destruct (zsplit pos (tits i)) as (a & c & E & L); [lia|]. destruct c as [|j c]; [rewrite E, app_nil_r in Li; lia|].
    assert (J : znth 0 (tits i) pos = j) by (rewrite E, <- L; apply znth_app_exact). rewrite J. assert (B : 0 <= j < zlen (tits l)). { rewrite Forall_forall in Fa. apply Fa. rewrite E. apply in_or_app. cbn. auto. }
    assert (Ln : zlen (ztake j (tits l) ++ x :: zdrop (j + 1) (tits l)) = zlen (tits l)) by (rewrite zlen_app, zlen_cons, zlen_ztake, zlen_zdrop by lia; lia).
    split; [rewrite Ln; auto|]. rewrite E in Nd, Fa |- *. rewrite !map_app. cbn [map]. apply NoDup_remove in Nd as [_ Nj]. rewrite Forall_app in Fa. destruct Fa as [Fa Fc]. inversion Fc as [|? ? _ Fc']; subst.
    assert (X : forall q, Forall (fun j => 0 <= j < zlen (tits l)) q -> ~ In (znth 0 (tits i) (zlen a)) q -> map (znth 0 (ztake (znth 0 (tits i) (zlen a)) (tits l) ++ x :: zdrop (znth 0 (tits i) (zlen a) + 1) (tits l))) q = map (znth 0 (tits l)) q).
    { intros q Fq Nq. apply map_ext_in. intros y Y. rewrite Forall_forall in Fq. rewrite znth_replace by auto. destruct (Z.eqb_spec y (znth 0 (tits i) (zlen a))); [subst; contradiction|reflexivity]. }
    rewrite !X by (auto; intros K; apply Nj, in_or_app; auto). rewrite znth_replace, Z.eqb_refl by auto.
    set (va := map (znth 0 (tits l)) a). set (vc := map (znth 0 (tits l)) c). assert (La : zlen a = zlen va) by (unfold va, zlen; now rewrite map_length).
    set (y := znth 0 (tits l) _). clearbody y. rewrite La, ztake_app_exact. f_equal. f_equal. change (va ++ y :: vc) with (va ++ [y] ++ vc). rewrite app_assoc.
    replace (zlen va + 1) with (zlen (va ++ [y])) by (zl; lia). now rewrite zdrop_app_exact.
Qed.
Lemma delete_view b pos : instep b -> 0 <= pos < zlen (stored_keys b) ->
  instep (bm_delete b pos) /\ stored_keys (bm_delete b pos) = ztake pos (stored_keys b) ++ zdrop (pos + 1) (stored_keys b) /\ values (bm_delete b pos) = ztake pos (values b) ++ zdrop (pos + 1) (values b).
Proof.
  intros I P. unfold instep, values, stored_keys, bm_delete in *. cbn [bkeys bvals] in *. destruct (bvals b) as [l|i l]; cbn [vals_delete tits tg_delete].
  - split; [|auto]. rewrite !zlen_app, !zlen_ztake, !zlen_zdrop by lia. lia.
  - destruct I as (Li & Nd & Fa). pose proof (zsplit1 0 pos (tits i) ltac:(lia)) as E. set (a := ztake pos (tits i)) in *. set (c := zdrop (pos + 1) (tits i)) in *.
    split; [split; [|split]|split; [reflexivity|]].
    + unfold a, c. rewrite !zlen_app, !zlen_ztake, !zlen_zdrop by lia. lia.
    + rewrite E in Nd. apply NoDup_remove in Nd. tauto.
    + rewrite E, Forall_app in Fa. destruct Fa as [Fa Fc]. inversion Fc; subst. apply Forall_app. auto.
    + unfold a, c. rewrite map_app. unfold ztake, zdrop. now rewrite firstn_map, skipn_map.
Qed.
Lemma ztake_map A B (f : A -> B) n l : ztake n (map f l) = map f (ztake n l).
Proof. unfold ztake. apply firstn_map. Qed.
Lemma zdrop_map A B (f : A -> B) n l : zdrop n (map f l) = map f (zdrop n l).
Proof. unfold zdrop. apply skipn_map. Qed.
Lemma bstep_view h base own b o l : owns h base (bmown b ++ own) -> instep b -> shows b l -> in_map (zlen l) o ->
  exists h' b' l', bstep h b o = Ret (h', b') /\ owns h' base (bmown b' ++ own) /\ instep b' /\ shows b' l' /\ vstep l o l'.
Proof.
  intros O I [K V] M. assert (Lk : zlen (stored_keys b) = zlen l) by (rewrite K; unfold zlen; now rewrite map_length).
  assert (INS : forall pos k v, 0 <= pos <= zlen l -> exists r h' b' l', bm_insert_nocheck h b pos k v = Ret (r, h', b') /\ owns h' base (bmown b' ++ own) /\ instep b' /\ shows b' l' /\
     (l' = ztake pos l ++ (k, v) :: zdrop pos l \/ l' = l)).
  { intros pos k v P. destruct (nocheck_view h base own b pos k v O I) as (r & h' & b' & E & O' & I' & [(-> & K' & V')|(-> & K' & V' & _)]); [lia| |].
    - exists pos, h', b', (ztake pos l ++ (k, v) :: zdrop pos l). split; [exact E|]. split; [exact O'|]. split; [exact I'|]. split; [|auto]. split.
      + rewrite K', K, ztake_map, zdrop_map, map_app. reflexivity.
      + rewrite V', V, ztake_map, zdrop_map, map_app. reflexivity.
    - exists (-1), h', b', l. split; [exact E|]. split; [exact O'|]. split; [exact I'|]. split; [|auto]. split; congruence. }
  assert (SET : forall i v, 0 <= i < zlen l -> exists l' a k0 v0 c, l = a ++ (k0, v0) :: c /\ zlen a = i /\ l' = a ++ (k0, v) :: c /\ shows (mkHbm (bkeys b) (vals_set (bvals b) v i)) l' /\ instep (mkHbm (bkeys b) (vals_set (bvals b) v i))).
  { intros i v P. destruct (vals_set_view b v i I) as [I' V']; [lia|]. pose proof (zsplit1 (0, 0) i l P) as E. destruct (znth (0, 0) l i) as [k0 v0]. do 5 eexists. split; [exact E|]. split; [apply zlen_ztake; lia|]. split; [reflexivity|]. split; [|exact I'].
    split; [change (stored_keys (mkHbm (bkeys b) (vals_set (bvals b) v i))) with (stored_keys b); rewrite K; rewrite E at 1; rewrite !map_app; reflexivity|].
    rewrite V', V, ztake_map, zdrop_map, map_app. reflexivity. }
  destruct o as [pos k v|[i|] pos k v|pos|pos v]; cbn [in_map] in M; cbn [bstep bm_insert].
  - destruct (INS pos k v M) as (r & h' & b' & l' & -> & O' & I' & S' & [El|El]); subst l'; cbn [bind]; do 3 eexists; (split; [reflexivity|]); (split; [exact O'|]); (split; [exact I'|]); (split; [exact S'|]).
    + pose proof (V_ins (ztake pos l) (zdrop pos l) k v) as X. rewrite ztake_zdrop, zlen_ztake in X by lia. exact X.
    + constructor.
  - destruct (SET i v M) as (l' & a & k0 & v0 & c & E & L & -> & S' & I'). do 3 eexists. split; [reflexivity|]. split; [unfold bmown in *; cbn [bkeys bvals]; now rewrite vown_set|]. split; [exact I'|]. split; [exact S'|]. rewrite E, <- L. constructor.
  - destruct (INS pos k v M) as (r & h' & b' & l' & -> & O' & I' & S' & [El|El]); subst l'; cbn [bind]; do 3 eexists; (split; [reflexivity|]); (split; [exact O'|]); (split; [exact I'|]); (split; [exact S'|]).
    + pose proof (V_new (ztake pos l) (zdrop pos l) k v) as X. rewrite ztake_zdrop, zlen_ztake in X by lia. exact X.
    + constructor.
  - destruct (delete_view b pos I) as (I' & K' & V'); [lia|]. exists h, (bm_delete b pos), (ztake pos l ++ zdrop (pos + 1) l). split; [reflexivity|]. split; [unfold bmown, bm_delete in *; cbn [bkeys bvals]; now rewrite vown_delete|]. split; [exact I'|]. split.
    + split; [rewrite K', K|rewrite V', V]; now rewrite ztake_map, zdrop_map, map_app.
    + pose proof (zsplit1 (0, 0) pos l M) as E. destruct (znth (0, 0) l pos) as [k0 v0]. pose proof (V_del (ztake pos l) k0 v0 (zdrop (pos + 1) l)) as X. rewrite <- E, zlen_ztake in X by lia. exact X.
  - destruct (SET pos v M) as (l' & a & k0 & v0 & c & E & L & -> & S' & I'). do 3 eexists. split; [reflexivity|]. split; [unfold bmown in *; cbn [bkeys bvals]; now rewrite vown_set|]. split; [exact I'|]. split; [exact S'|]. rewrite E, <- L. constructor.
Qed.
Lemma bruns_view ops : forall h base own b l, owns h base (bmown b ++ own) -> instep b -> shows b l ->
  (forall p o q h1 b1, ops = p ++ o :: q -> bruns h b p = Ret (h1, b1) -> in_map (zlen (stored_keys b1)) o) ->
  exists h' b' l', bruns h b ops = Ret (h', b') /\ owns h' base (bmown b' ++ own) /\ instep b' /\ shows b' l' /\ vsteps l ops l'.
Proof.
  induction ops as [|o ops IH]; intros h base own b l O I S M; cbn [bruns]. { exists h, b, l. repeat split; auto; try apply O; try apply S. constructor. }
  assert (Lk : zlen (stored_keys b) = zlen l) by (destruct S as [K _]; rewrite K; unfold zlen; now rewrite map_length).
  destruct (bstep_view h base own b o l O I S) as (h1 & b1 & l1 & E & O1 & I1 & S1 & V1). { rewrite <- Lk. now apply (M [] o ops h b). }
  rewrite E. cbn [bind]. destruct (IH h1 base own b1 l1 O1 I1 S1) as (h2 & b2 & l2 & E2 & O2 & I2 & S2 & V2).
  - intros p o' q h2 b2 -> R. apply (M (o :: p) o' q h2 b2); [reflexivity|]. cbn [bruns]. rewrite E. exact R.
  - exists h2, b2, l2. repeat split; auto; try apply O2; try apply S2. econstructor; eauto.
Qed.
