From Verif Require Import Base Bits Cstr M_stringptr M_str P_str M_opt S_opt P_opt S_optexact.

Lemma same_spec a b : same a b = true <-> a = b.
Proof. unfold same. destruct (list_eq_dec Z.eq_dec a b); split; congruence. Qed.
Lemma same_len a b : zlen a <> zlen b -> same a b = false.
Proof. intros H. destruct (same a b) eqn:E; [apply same_spec in E; congruence|reflexivity]. Qed.
Lemma cut_none t : cut t = None <-> ~ In 61 t.
Proof.
  induction t as [|c t IH]; cbn [cut]; [split; [intros _ []|reflexivity]|]. destruct (Z.eqb_spec c 61) as [->|N]; [split; [discriminate|intros H; elim H; now left]|].
  destruct (cut t) as [[a v]|]; split; try discriminate; [intros H; exfalso; assert (X : ~ In 61 t) by (intros I; apply H; now right); apply IH in X; discriminate|intros _ [E|I]; [congruence|]; now apply IH|reflexivity].
Qed.
Lemma cut_some a v : ~ In 61 a -> cut (a ++ 61 :: v) = Some (a, v).
Proof. induction a as [|c a IH]; intros N; cbn [app cut]; [reflexivity|]. destruct (Z.eqb_spec c 61) as [->|]; [elim N; now left|]. rewrite IH; [reflexivity|]. intros I. apply N. now right. Qed.
Lemma strip_ok n s : nz s -> op_name (s ++ [0]) n = Ret (match strip n s with Some t => Some (zlen s - zlen t) | None => None end) /\
  forall t, strip n s = Some t -> exists p, s = p ++ t.
Proof.
  intros N. unfold op_name. destruct s as [|c s]; cbn [app strip]; [split; [reflexivity|discriminate]|]. change (zread (c :: s ++ [0]) 0) with (Ret c). cbn [bind]. destruct (c =? 45); [|split; [reflexivity|discriminate]].
  destruct s as [|d s]; cbn [app].
  - split; [|intros t E; injection E as <-; exists [c]; reflexivity]. destruct (1 <? n); [|reflexivity]. change (zread [c; 0] 1) with (Ret 0). reflexivity.
  - destruct (1 <? n); cbn [andb].
    + change (zread (c :: d :: s ++ [0]) 1) with (Ret d). cbn [bind]. destruct (d =? 45).
      * split; [|intros t E; injection E as <-; exists [c; d]; reflexivity]. do 2 f_equal. rewrite !zlen_cons. lia.
      * split; [|intros t E; injection E as <-; exists [c]; reflexivity]. do 2 f_equal. rewrite !zlen_cons. lia.
    + split; [|intros t E; injection E as <-; exists [c]; reflexivity]. do 2 f_equal. rewrite !zlen_cons. lia.
Qed.
Section E.
Variables (f r : list Z) (args : list (list Z)).
Hypotheses (Fn : nz f) (An : Forall nz args).
Let P := st args.
Let fl := spf f r.
Lemma at_suffix pre s rest : args = pre ++ s :: rest -> nz s /\ zread (argv P) (zlen pre) = Ret (s ++ [0]) /\ (zlen pre <? argc P) = true.
Proof using An.
  intros E. split; [rewrite E in An; apply Forall_app in An as [_ A]; now inversion A|]. unfold P, st. cbn [argv argc]. split; [rewrite buf_read by (rewrite E, zlen_app, zlen_cons; zpos; lia)|rewrite E, zlen_app, zlen_cons; zpos; lia]. now rewrite E, znth_app2, Z.sub_diag by lia.
Qed.
Lemma name_same p t q : zlen t = zlen f -> memcmp0 (sb fl) (so fl) (p ++ t ++ q) (zlen p) (zlen f) = Ret (same t f).
Proof using. intros L. destruct (memcmp_name f r p t q (zlen p) eq_refl L) as (b & E & B). fold fl in E. rewrite E. f_equal. destruct b; symmetry; [apply same_spec; now apply B|]. destruct (same t f) eqn:X; [|reflexivity]. apply same_spec in X. apply B in X. discriminate. Qed.
Lemma hasflag_exact : forall rest pre fuel, args = pre ++ rest -> (length rest < fuel)%nat ->
  hasflag_loop fuel P fl (zlen pre) = Ret (if existsb (fun s => match strip (zlen f) s with Some t => same t f | None => false end) rest then 1 else 0).
Proof using An.
  induction rest as [|s rest IH]; intros pre fuel E F; (destruct fuel as [|fuel]; [cbn in F; lia|]); cbn [hasflag_loop existsb].
  - unfold P, st. cbn [argc]. rewrite E, app_nil_r. now rewrite Z.ltb_irrefl.
  - destruct (at_suffix pre s rest E) as (Ns & R & L). rewrite L, R. cbn [bind]. change (sz fl) with (zlen f). destruct (strip_ok (zlen f) s Ns) as [Q Qs]. rewrite Q. cbn [bind].
    assert (IH' : hasflag_loop fuel P fl (zlen pre + 1) = Ret (if existsb (fun s => match strip (zlen f) s with Some t => same t f | None => false end) rest then 1 else 0)).
    { replace (zlen pre + 1) with (zlen (pre ++ [s])) by (rewrite zlen_app; reflexivity). apply IH; [rewrite <- app_assoc; exact E|cbn in F; lia]. }
    destruct (strip (zlen f) s) as [t|]; [|exact IH']. destruct (Qs t eq_refl) as (p & Es). subst s. apply nz_app in Ns as [_ Nt]. rewrite zlen_app, <- app_assoc. replace (zlen p + zlen t - zlen t) with (zlen p) by lia. rewrite strlen_ok by auto. cbn [bind].
    destruct (Z.eqb_spec (zlen t) (zlen f)) as [El|El]; [|rewrite same_len by exact El; exact IH']. rewrite El, name_same by exact El. cbn [bind]. destruct (same t f); [reflexivity|exact IH'].
Qed.
Lemma get_exact : Forall (fun s => zlen s < 2 ^ 63) args -> forall rest pre fuel, args = pre ++ rest -> (length rest < fuel)%nat ->
  get_loop fuel P fl (zlen pre) = Ret (value_of f (zlen pre) rest).
Proof using An Fn.
  intros Al. induction rest as [|s rest IH]; intros pre fuel E F; (destruct fuel as [|fuel]; [cbn in F; lia|]); cbn [get_loop value_of].
  - unfold P, st. cbn [argc]. rewrite E, app_nil_r. now rewrite Z.ltb_irrefl.
  - destruct (at_suffix pre s rest E) as (Ns & R & L). rewrite L, R. cbn [bind]. change (sz fl) with (zlen f). destruct (strip_ok (zlen f) s Ns) as [Q Qs]. rewrite Q. cbn [bind].
    assert (IH' : get_loop fuel P fl (zlen pre + 1) = Ret (value_of f (zlen pre + 1) rest)).
    { replace (zlen pre + 1) with (zlen (pre ++ [s])) by (rewrite zlen_app; reflexivity). apply IH; [rewrite <- app_assoc; exact E|cbn in F; lia]. }
    destruct (strip (zlen f) s) as [t|]; [|exact IH']. destruct (Qs t eq_refl) as (p & Es). subst s. apply nz_app in Ns as [_ Nt]. rewrite !zlen_app, <- app_assoc. replace (zlen p + zlen t - zlen t) with (zlen p) by lia.
    assert (Ls : zlen p + zlen t < 2 ^ 63). { rewrite E in Al. apply Forall_app in Al as [_ A]. inversion A as [|? ? A1 _]. now rewrite zlen_app in A1. } zpos.
    assert (Last : (zlen pre + 1 <? argc P) = match rest with [] => false | _ => true end). { unfold P, st. cbn [argc]. rewrite E, zlen_app, zlen_cons. destruct rest; [change (zlen (@nil (list Z))) with 0|rewrite zlen_cons; zpos]; lia. }
    assert (SQ : streq_at (S (length (sb fl))) (sb fl) (p ++ t ++ [0]) (so fl) (zlen p) = Ret (same t f)).
    { pose proof (streq_at_ok f t (S (length (f ++ 0 :: r))) [] p r [] Fn Nt ltac:(rewrite app_length; lia)) as X. cbn [app] in X. change (zlen []) with 0 in X. cbn [sb so fl spf]. rewrite X. f_equal. unfold same. destruct (list_eq_dec Z.eq_dec f t), (list_eq_dec Z.eq_dec t f); congruence. }
    destruct (strleneq_ok t (S (length (p ++ t ++ [0]))) p 0 Nt ltac:(lia) ltac:(lia) ltac:(rewrite !app_length; lia)) as (l & El & Hl). rewrite El. cbn [bind]. destruct Hl as [[No ->]|(a & v & Et & Na & ->)].
    + rewrite (proj2 (cut_none t) No). destruct (Z.eqb_spec 0 (zlen f)) as [Z0|Z0].
      * assert (f = []) as F0 by (destruct f; [reflexivity|rewrite zlen_cons in Z0; zpos; lia]). pose proof (name_same p [] (t ++ [0]) ltac:(rewrite F0; reflexivity)) as M. rewrite <- Z0 in M. cbn [app] in M. rewrite M. cbn [bind]. rewrite F0. cbn. do 3 f_equal. lia.
      * cbn [bind]. replace (same f []) with false by (symmetry; apply same_len; change (zlen (@nil Z)) with 0; lia). change (0 =? 0) with true. cbn iota. rewrite SQ. cbn [bind]. rewrite Last. destruct (same t f); [|exact IH']. destruct rest; [exact IH'|reflexivity].
    + assert (CT : cut t = Some (a, v)) by (rewrite Et; now apply cut_some). rewrite CT. rewrite Z.add_0_l. destruct (Z.eqb_spec (zlen a) (zlen f)) as [La|La].
      * assert (M : memcmp0 (sb fl) (so fl) (p ++ t ++ [0]) (zlen p) (zlen a) = Ret (same a f)). { rewrite Et, <- app_assoc, La. now apply name_same. } rewrite M. cbn [bind]. destruct (same a f) eqn:SA; [rewrite Et, zlen_app, zlen_cons; do 3 f_equal; lia|].
        destruct (Z.eqb_spec (zlen a) 0) as [A0|A0]; [exfalso|]. { destruct a; [|rewrite zlen_cons in A0; zpos; lia]. destruct f; [discriminate SA|rewrite zlen_cons in La; zpos; lia]. }
        cbn [bind andb]. replace (same a []) with false by (symmetry; apply same_len; change (zlen (@nil Z)) with 0; lia). exact IH'.
      * cbn [bind]. rewrite (same_len a f La). destruct (Z.eqb_spec (zlen a) 0) as [A0|A0].
        -- assert (a = []) as A1 by (destruct a; [reflexivity|rewrite zlen_cons in A0; zpos; lia]). rewrite SQ. cbn [bind]. rewrite A1. change (same [] []) with true. cbn iota. rewrite Last. destruct (same t f); [|exact IH']. destruct rest; [exact IH'|reflexivity].
        -- cbn [bind andb]. replace (same a []) with false by (symmetry; apply same_len; change (zlen (@nil Z)) with 0; lia). exact IH'.
Qed.
End E.
