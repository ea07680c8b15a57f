From Verif Require Import Base M_heap S_heap P_heap M_own D_own P_own M_ownmap D_ownmap D_ownmap2 P_ownmap2.
From Coq Require Import Permutation.

Lemma sb_add_left A h (l : hsb A) x ok h' l' : sb_add h l x = Ret (ok, h', l') -> left_of h h' /\ (ok = false -> sane h -> In false (script h)).
Proof.
  unfold sb_add, sb_grow. destruct (_ =? hcapa l).
  - destruct (hrealloc h (hbuf l)) as [[t h1]| |] eqn:R; cbn [bind]; [|discriminate..]. destruct (hrealloc_left _ _ _ _ R) as [L F]. destruct (t =? NULL) eqn:T; cbn [bind]; intros X; injection X as <- <- <-; (split; [exact L|]); [|discriminate]. intros _. apply F. lia.
  - cbn [bind]. intros X. injection X as <- <- <-. split; [apply left_refl|discriminate].
Qed.
Definition bitems {A} (b : option (hsb A)) : list A := match b with Some b => hits b | None => [] end.
Lemma hl_add_view A h base (l : hhl A) hash x : 0 < zlen (lbkt l) -> owns h base (bowns (lbkt l) ++ [ltab l; lself l]) ->
  exists r h' l' a b c, hl_add h l hash x = Ret (r, h', l') /\ map bitems (lbkt l) = a ++ b :: c /\ zlen a = hash mod zlen (lbkt l) /\
    (r = 0 /\ map bitems (lbkt l') = a ++ (b ++ [x]) :: c \/ r <> 0 /\ map bitems (lbkt l') = a ++ b :: c /\ In false (script h)).
Proof.
  intros Z0 O. unfold hl_add. replace (zlen (lbkt l) =? 0) with false by lia. pose proof (Z.mod_pos_bound hash _ Z0) as B. set (i := hash mod zlen (lbkt l)) in *.
  destruct (zsplit i (lbkt l)) as (a & c & E & L); [lia|]. destruct c as [|b c]; [rewrite E, app_nil_r in B; lia|]. rewrite E. rewrite zread_at by auto. cbn [bind]. assert (Sn : sane h) by apply O.
  rewrite E, bowns_app in O. unfold bowns at 2 in O. cbn [map concat] in O. change (concat (map bown c)) with (bowns c) in O.
  assert (X : exists b' h', match b with Some b => (Some b, h) | None => sb_new h 8 end = (b', h') /\ left_of h h' /\
     match b' with None => b = None /\ In false (script h) | Some b' => hits b' = bitems b /\ exists own, owns h' base (owned b' ++ own) end).
  { assert (Pm : forall o, Permutation ((bowns a ++ o ++ bowns c) ++ [ltab l; lself l]) (o ++ (bowns a ++ bowns c) ++ [ltab l; lself l])).
    { intros o. rewrite !app_assoc. do 2 apply Permutation_app_tail. apply Permutation_app_comm. }
    destruct b as [b|].
    - exists (Some b), h. split; [reflexivity|]. split; [apply left_refl|]. split; [reflexivity|]. eexists. eapply owns_perm; [|exact O]. apply (Pm (owned b)).
    - destruct (sb_new_ok A h 8 _ _ O) as (r & h' & E' & R). rewrite E'. exists r, h'. split; [reflexivity|]. unfold sb_new in E'. destruct (halloc h) as [p h1] eqn:Al. destruct (p =? NULL) eqn:P; injection E' as <- <-; (split; [eapply halloc_left; eauto|]).
      + split; [reflexivity|]. destruct (halloc_ok _ _ _ O) as (q & h2 & E2 & [(_ & _ & s & F)|(Q & _)]); [rewrite F; now left|]. rewrite Al in E2. injection E2 as -> ->. unfold NULL in P. lia.
      + split; [reflexivity|]. destruct R as (_ & _ & _ & _ & R). eexists. exact R. }
  destruct X as (b' & h1 & -> & Lf & R). destruct b' as [b'|].
  - destruct R as (Hb & own & R). destruct (sb_add_ok _ _ _ _ _ x R) as (ok & h2 & b2 & E2 & O2 & _ & Hi & _). destruct (sb_add_left _ _ _ _ _ _ _ E2) as [_ Fl]. rewrite E2. cbn [bind]. rewrite zwrite_at by auto. cbn [bind].
    do 3 eexists. exists (map bitems a), (bitems b), (map bitems c). split; [reflexivity|]. split; [rewrite map_app; reflexivity|]. split; [unfold zlen in *; now rewrite map_length|]. cbn [lbkt]. rewrite map_app. cbn [map bitems]. rewrite Hi, Hb. destruct ok; [left; auto|right].
    split; [lia|]. split; [reflexivity|]. apply Lf, Fl; [reflexivity|apply R].
  - destruct R as [-> R]. do 3 eexists. exists (map bitems a), [], (map bitems c). split; [reflexivity|]. split; [rewrite map_app; reflexivity|]. split; [unfold zlen in *; now rewrite map_length|]. right. split; [lia|]. split; [rewrite E, map_app; reflexivity|exact R].
Qed.
Lemma hl_adds_len A (xs : list (Z * A)) : forall h base l h' l', 0 < zlen (lbkt l) -> owns h base (bowns (lbkt l) ++ [ltab l; lself l]) -> hl_adds h l xs = Ret (h', l') ->
  zlen (lbkt l') = zlen (lbkt l) /\ owns h' base (bowns (lbkt l') ++ [ltab l'; lself l']).
Proof.
  induction xs as [|[hash x] xs IH]; intros h base l h' l' Z0 O; cbn [hl_adds]; [intros E; injection E as <- <-; auto|]. destruct (hl_add_ok _ _ _ _ hash x Z0 O) as (r & h1 & l1 & -> & L & O1). cbn [bind]. intros E. apply (IH _ base) in E as [E1 E2]; [split; [lia|exact E2]|lia|exact O1].
Qed.
