(** Proofs about tgilist. *)
From Coq Require Import Permutation.
From Verif Require Import Base Cstr M_tglist S_tglist D_tglist P_tglist.

Section P.
Context {A : Type}.
Variables im ksz isz : Z.
Hypothesis Hk : 1 <= ksz.
Hypothesis Hi : 1 <= isz.

(** ks: the slots, vs: the store *)
Record grep (x : tgi A) (ks : list Z) (vs : list A) : Prop := mkGrep {
  g_idx : trep ksz (gidx x) ks;
  g_val : trep isz (gval x) vs;
  g_rng : Forall (fun k => 0 <= k < zlen vs) ks;
  g_dup : NoDup ks }.
Definition pick (vs : list A) (ks : list Z) (xs : list A) : Prop := Forall2 (fun k y => forall d, znth d vs k = y) ks xs.

Lemma pick_len vs ks xs : pick vs ks xs -> zlen ks = zlen xs.
Proof. induction 1; [reflexivity|]. zl. lia. Qed.
Lemma pick_app vs a b xs ys : pick vs a xs -> pick vs b ys -> pick vs (a ++ b) (xs ++ ys).
Proof. apply Forall2_app. Qed.
Lemma pick_app_inv vs a b xs : pick vs (a ++ b) xs -> exists p q, xs = p ++ q /\ pick vs a p /\ pick vs b q.
Proof. intros H. apply Forall2_app_inv_l in H as [p [q [H1 [H2 ->]]]]. eauto. Qed.
(** the picked list is determined *)
Lemma pick_ext vs vs' ks xs : pick vs ks xs -> Forall (fun k => 0 <= k < zlen vs) ks -> (forall k d, 0 <= k < zlen vs -> In k ks -> znth d vs' k = znth d vs k) -> pick vs' ks xs.
Proof.
  induction 1 as [|k y ks xs H1 H2 IH]; intros HF HE; [constructor|]. apply Forall_cons_iff in HF as [Hf HF]. constructor.
  - intros d. rewrite HE; auto. now left.
  - apply IH; auto. intros. apply HE; auto. now right.
Qed.
Lemma pick_exists vs ks : Forall (fun k => 0 <= k < zlen vs) ks -> exists xs, pick vs ks xs.
Proof.
  induction ks as [|k ks IH]; intros HF; [exists []; constructor|]. apply Forall_cons_iff in HF as [Hf HF]. destruct (IH HF) as [xs Hx].
  destruct (zsplit_mid vs k Hf) as [p [y [q [-> <-]]]]. exists (y :: xs). constructor; [|assumption]. intros d. apply znth_app_exact.
Qed.
Lemma pick_znth vs ks xs i d e : pick vs ks xs -> 0 <= i < zlen xs -> znth d vs (znth e ks i) = znth d xs i.
Proof.
  intros HP. revert i. induction HP as [|k y ks xs H1 H2 IH]; intros i Hi'; [zl; cbn in Hi'; lia|].
  destruct (Z.eq_dec i 0) as [->|]; [apply H1|]. rewrite !znth_consS by lia. apply IH. zl. lia.
Qed.

Lemma grep_get x ks vs xs i d : grep x ks vs -> pick vs ks xs -> 0 <= i < zlen xs -> tgilist_get x i = Ret (znth d xs i).
Proof.
  intros HG HP Hi'. unfold tgilist_get. pose proof (pick_len _ _ _ HP). rewrite (get_znth _ _ _ i 0 (g_idx _ _ _ HG)) by lia. cbn [bind].
  pose proof (Forall_znth _ 0 ks i (g_rng _ _ _ HG) ltac:(lia)) as HR. cbn beta in HR.
  rewrite (get_znth _ _ _ _ d (g_val _ _ _ HG)) by lia. now rewrite (pick_znth vs ks xs).
Qed.
Lemma rng_app (vs : list A) (y : A) ks : Forall (fun k => 0 <= k < zlen vs) ks -> Forall (fun k => 0 <= k < zlen (vs ++ [y])) ks.
Proof. apply Forall_impl. intros. zl. zpos. lia. Qed.
Lemma fresh_notin (vs : list A) ks : Forall (fun k => 0 <= k < zlen vs) ks -> ~ In (zlen vs) ks.
Proof. rewrite Forall_forall. intros H Hin. specialize (H _ Hin). lia. Qed.
Lemma trep_shrink (v : tgl A) vs y : trep isz v (vs ++ [y]) -> trep isz (mkTg (u64 (tcnt v - 1)) (tcapa v) (tmem v)) vs.
Proof.
  intros HT. pose proof (trep_u64 isz Hi _ _ HT) as [_ Hu]. pose proof HT as [[j E] Hc Hk' Hs Hp]. zl. zpos. split; cbn [tcnt tcapa tmem]; auto.
  - rewrite E, <- app_assoc. eauto.
  - rewrite Hc, u64_id; lia.
Qed.

Lemma NoDup_insert {B} (a b : list B) x : NoDup (a ++ b) -> ~ In x (a ++ b) -> NoDup (a ++ x :: b).
Proof. intros H1 H2. apply (NoDup_Add (Add_app x a b)). auto. Qed.
Lemma NoDup_app_snoc {B} (a : list B) x : NoDup a -> ~ In x a -> NoDup (a ++ [x]).
Proof. intros. apply NoDup_insert; now rewrite app_nil_r. Qed.

Lemma gexec_full al x ks vs xs o : grep x ks vs -> pick vs ks xs -> zlen vs < im ->
  (2 * zlen ks + 4) * ksz < 2 ^ 64 -> (2 * zlen vs + 4) * isz < 2 ^ 64 -> lvalid (tgilist_getsize x) o ->
  exists r x' ks' vs' xs', gexec im ksz isz al x o = Ret (r, x') /\ grep x' ks' vs' /\ pick vs' ks' xs' /\
    lspec (both_mem al) xs o r xs' /\ zlen vs' <= zlen vs + 1 /\ zlen ks' <= zlen ks + 1 /\ slots_kept x x' o /\
    (forall D, Permutation vs (xs ++ D) -> Permutation vs' (xs' ++ lgone xs o ++ D)).
Proof.
  intros HG HP HM HLk HLv HV. destruct al as [ai av]. pose proof HG as [Gi Gv Gr Gd]. unfold tgilist_getsize in HV. rewrite (r_cnt _ _ _ Gi) in HV.
  pose proof (pick_len _ _ _ HP) as HLen. unfold both_mem. cbn [fst snd]. zpos.
  assert (HGv : forall k, 0 <= k < zlen vs -> exists y, tglist_get (gval x) k = Ret y /\ forall d, znth d vs k = y).
  { intros k Hk'. destruct (zsplit_mid vs k Hk') as [p [y [q [E <-]]]]. exists y. rewrite E in *. split; [eapply get_ok; eauto|]. intros; apply znth_app_exact. }
  assert (HExt : forall y, pick (vs ++ [y]) ks xs).
  { intros y. apply (pick_ext vs); auto. intros. apply znth_app1. lia. }
  assert (HSlots : forall (x' : tgi A) vs' k, trep isz (gval x') (vs ++ vs') -> 0 <= k < tcnt (gval x) -> tglist_get (gval x') k = tglist_get (gval x) k).
  { intros x' vs' k HT Hk'. rewrite (r_cnt _ _ _ Gv) in Hk'. destruct (HGv k Hk') as [y [Ey Ez]]. rewrite Ey. rewrite (get_znth _ _ _ k y HT) by (zl; zpos; lia).
    rewrite znth_app1 by lia. now rewrite Ez. }
  destruct o as [y|y pos|y pos|pos|pos]; cbn [gexec lvalid fst snd] in *.
  - (* add *) unfold tgilist_add. rewrite (r_cnt _ _ _ Gv). rewrite Z.mod_small by lia.
    destruct (add_ok ksz Hk ai (gidx x) ks (zlen vs) Gi HLk) as [r [i' [-> [[-> [-> Ha]]|[-> Gi']]]]]; cbn [bind Z.eqb].
    + exists (LInt 0), x, ks, vs, xs. destruct x; cbn. repeat split; auto; try apply Gi; try apply Gv; try lia. apply LsAddOom. now rewrite Ha.
    + destruct (add_ok isz Hi av (gval x) vs y Gv HLv) as [r [v' [-> [[-> [-> Ha]]|[-> Gv']]]]]; cbn [bind Z.eqb negb].
      * pose proof (trep_u64 ksz Hk _ _ Gi') as [_ Hu]. rewrite (r_cnt _ _ _ Gi'). zl. rewrite u64_id by lia.
        destruct (delete_ok ksz Hk i' ks (zlen vs) [] (zlen ks + (1 + 0) - 1)) as [i2 [-> Gi2]]; [exact Gi'|lia|]. cbn [bind]. rewrite app_nil_r in Gi2.
        exists (LInt 0), (mkTgi i2 (gval x)), ks, vs, xs. split; [reflexivity|]. split; [split; auto|]. split; [assumption|].
        split; [apply LsAddOom; rewrite Ha; apply andb_false_r|]. split; [lia|]. split; [lia|]. split; [|auto]. split; [reflexivity|].
        intros k Hk'. unfold gslot, tgilist_getsize in *. rewrite (r_cnt _ _ _ Gi) in Hk'. cbn [gidx]. rewrite (get_znth _ _ _ k 0 Gi2), (get_znth _ _ _ k 0 Gi) by lia. reflexivity.
      * exists (LInt 1), (mkTgi i' v'), (ks ++ [zlen vs]), (vs ++ [y]), (xs ++ [y]). split; [reflexivity|]. split.
        { split; cbn [gidx gval]; auto.
          - apply Forall_app. split; [now apply rng_app|]. constructor; [|constructor]. zl. lia.
          - apply NoDup_app_snoc; [assumption|now apply fresh_notin]. }
        split; [apply pick_app; [apply HExt|]; constructor; [intros; apply znth_app_exact|constructor]|].
        split; [constructor|]. split; [zl; lia|]. split; [zl; lia|].
        split; [|intros D HD; cbn [lgone]; rewrite <- app_assoc; cbn [app]; etransitivity; [apply Permutation_app_tail, HD|]; rewrite <- app_assoc; apply Permutation_app_head; symmetry; apply Permutation_cons_append].
        split.
        { intros k Hk'. eapply HSlots; eauto. }
        intros k Hk'. unfold gslot, tgilist_getsize in *. rewrite (r_cnt _ _ _ Gi) in Hk'. cbn [gidx]. rewrite (get_znth _ _ _ k 0 Gi'), (get_znth _ _ _ k 0 Gi) by (zl; lia). rewrite znth_app1 by lia. reflexivity.
  - (* insert *) unfold tgilist_insert.
    destruct (add_ok isz Hi av (gval x) vs y Gv HLv) as [r [v' [-> [[-> [-> Ha]]|[-> Gv']]]]]; cbn [bind Z.eqb].
    + exists (LInt 0), x, ks, vs, xs. destruct x; cbn. repeat split; auto; try apply Gi; try apply Gv; try lia. apply LsInsOom. rewrite Ha. apply andb_false_r.
    + pose proof (trep_u64 isz Hi _ _ Gv') as [_ Hu]. rewrite (r_cnt _ _ _ Gv'). zl. rewrite u64_id by lia. rewrite Z.mod_small by lia.
      replace (zlen vs + (1 + 0) - 1) with (zlen vs) by lia.
      destruct (zsplit pos ks) as [kp [kq [-> Hp]]]; [lia|].
      destruct (insert_ok ksz Hk ai (gidx x) kp kq (zlen vs) pos Gi HLk ltac:(lia)) as [r [i' [-> [[-> [-> Ha]]|[-> Gi']]]]]; cbn [bind Z.eqb negb].
      * exists (LInt 0), (mkTgi (gidx x) (mkTg (zlen vs) (tcapa v') (tmem v'))), (kp ++ kq), vs, xs. split; [reflexivity|].
        assert (GV2 : trep isz (mkTg (zlen vs) (tcapa v') (tmem v')) vs).
        { pose proof (trep_shrink v' vs y Gv') as HS. rewrite (r_cnt _ _ _ Gv') in HS. zl. rewrite u64_id in HS by lia. now replace (zlen vs + (1 + 0) - 1) with (zlen vs) in HS by lia. }
        split; [split; auto|]. split; [assumption|]. split; [apply LsInsOom; now rewrite Ha|]. split; [lia|]. split; [lia|]. split; [|auto]. split.
        { intros k Hk'. eapply (HSlots (mkTgi (gidx x) (mkTg (zlen vs) (tcapa v') (tmem v'))) []); [rewrite app_nil_r; exact GV2|assumption]. }
        intros k Hk'. left. reflexivity.
      * destruct (pick_app_inv _ _ _ _ (HExt y)) as [xp [xq [-> [HP1 HP2]]]].
        exists (LInt 1), (mkTgi i' v'), (kp ++ zlen vs :: kq), (vs ++ [y]), (xp ++ y :: xq). split; [reflexivity|].
        apply Forall_app in Gr as [Gr1 Gr2]. split.
        { split; cbn [gidx gval]; auto.
          - apply Forall_app. split; [now apply rng_app|]. constructor; [zl; lia|now apply rng_app].
          - apply NoDup_insert; [assumption|]. rewrite in_app_iff. intros [H|H]; eapply fresh_notin; try exact H; assumption. }
        split; [apply pick_app; [exact HP1|]; constructor; [intros; apply znth_app_exact|exact HP2]|].
        pose proof (pick_len _ _ _ HP1) as HL1. split.
        { rewrite <- Hp, HL1. constructor. }
        split; [zl; lia|]. split; [zl; lia|].
        split; [|intros D HD; cbn [lgone]; change ([] ++ D) with D; rewrite <- app_assoc; cbn [app]; etransitivity; [apply Permutation_app_tail, HD|]; rewrite <- !app_assoc; apply Permutation_app_head; rewrite (app_assoc xq); symmetry; apply Permutation_cons_append].
        split.
        { intros k Hk'. eapply HSlots; eauto. }
        intros k Hk'. right. unfold gslot, tgilist_getsize in *. rewrite (r_cnt _ _ _ Gi) in Hk'. cbn [gidx]. zl. zpos.
        rewrite (get_znth _ _ _ k 0 Gi) by (zl; lia). destruct (k <? pos) eqn:Ek.
        -- rewrite (get_znth _ _ _ k 0 Gi') by (zl; lia). rewrite !znth_app1 by lia. reflexivity.
        -- rewrite (get_znth _ _ _ (k + 1) 0 Gi') by (zl; lia). rewrite !znth_app2 by lia. rewrite znth_consS by lia. do 2 f_equal. lia.
  - (* set *) unfold tgilist_set. destruct (zsplit_mid ks pos HV) as [kp [s [kq [-> Hp]]]]. subst pos.
    rewrite (get_ok ksz (gidx x) kp s kq Gi). cbn [bind].
    assert (Hs : 0 <= s < zlen vs) by (apply Forall_app in Gr as [_ Gr]; apply Forall_cons_iff in Gr; tauto).
    destruct (zsplit_mid vs s Hs) as [vp [z [vq [-> Hvp]]]].
    destruct (set_ok isz (gval x) vp z vq y Gv) as [v' [E Gv']]. rewrite Hvp in E. rewrite E. cbn [bind].
    destruct (pick_app_inv _ _ _ _ HP) as [xp [xq [-> [HP1 HP2]]]]. inversion HP2 as [|? x0 ? xq' Hx0 HP3]; subst.
    assert (HO : forall k d, k <> zlen vp -> 0 <= k -> znth d (vp ++ y :: vq) k = znth d (vp ++ z :: vq) k).
    { intros k d Hne H0. destruct (Z_lt_le_dec k (zlen vp)); [now rewrite !znth_app1 by lia|]. rewrite !znth_app2 by lia. rewrite !znth_consS by lia. reflexivity. }
    assert (HNot : ~ In (zlen vp) (kp ++ kq)) by (apply NoDup_remove in Gd; tauto). rewrite in_app_iff in HNot.
    pose proof Gr as Gr'. apply Forall_app in Gr' as [Gr1 Gr2]. apply Forall_cons_iff in Gr2 as [_ Gr2].
    exists (LInt 1), (mkTgi (gidx x) v'), (kp ++ zlen vp :: kq), (vp ++ y :: vq), (xp ++ y :: xq'). split; [reflexivity|]. split.
    { split; cbn [gidx gval]; auto. eapply Forall_impl; [|exact Gr]. cbn. intros a. zl. lia. }
    split; [apply pick_app; [|constructor; [intros; apply znth_app_exact|]]|].
    { eapply pick_ext; [exact HP1|exact Gr1|]. intros k d Hk' Hin. apply HO; [intros ->; tauto|lia]. }
    { eapply pick_ext; [exact HP3|exact Gr2|]. intros k d Hk' Hin. apply HO; [intros ->; tauto|lia]. }
    split; [rewrite (pick_len _ _ _ HP1); constructor|]. split; [zl; lia|]. split; [lia|].
    split; [|intros D HD; cbn [lgone]; change ([] ++ D) with D; specialize (Hx0 y); rewrite znth_app_exact in Hx0; subst x0; rewrite <- app_assoc in HD |- *; cbn [app] in *; apply Permutation_app_inv in HD; apply Permutation_elt; exact HD].
    split; [|reflexivity].
    intros k Hk'. cbn [gval]. unfold gslot. rewrite (get_ok ksz (gidx x) kp (zlen vp) kq Gi). rewrite (r_cnt _ _ _ Gv) in Hk'. zl.
    rewrite (get_znth _ _ _ k y Gv'), (get_znth _ _ _ k y Gv) by (zl; lia).
    destruct (zlen vp =? k) eqn:Ek; [replace k with (zlen vp) by lia; now rewrite znth_app_exact|]. now rewrite HO by lia.
  - (* delete *) unfold tgilist_delete. destruct (zsplit_mid ks pos HV) as [kp [s [kq [-> Hp]]]].
    destruct (delete_ok ksz Hk (gidx x) kp s kq pos Gi ltac:(lia)) as [i' [-> Gi']]. cbn [bind].
    destruct (pick_app_inv _ _ _ _ HP) as [xp [xq [-> [HP1 HP2]]]]. inversion HP2 as [|? x0 ? xq' Hx0 HP3]; subst.
    exists (LInt 1), (mkTgi i' (gval x)), (kp ++ kq), vs, (xp ++ xq'). split; [reflexivity|].
    apply Forall_app in Gr as [Gr1 Gr2]. apply Forall_cons_iff in Gr2 as [_ Gr2]. split.
    { split; cbn [gidx gval]; auto; [apply Forall_app; auto|]. apply NoDup_remove in Gd. tauto. }
    split; [now apply pick_app|]. split; [rewrite (pick_len _ _ _ HP1); constructor|]. split; [lia|]. split; [zl; lia|].
    split; [|intros D HD; cbn [lgone]; rewrite (pick_len _ _ _ HP1), zdrop_app_exact; change (ztake 1 (x0 :: xq')) with [x0]; rewrite <- app_assoc in HD |- *; etransitivity; [exact HD|]; apply Permutation_app_head; cbn [app]; apply Permutation_middle].
    split; [reflexivity|].
    intros k Hk'. unfold gslot, tgilist_getsize in *. rewrite (r_cnt _ _ _ Gi) in Hk'. cbn [gidx]. zl. zpos.
    destruct (Z.eq_dec k (zlen kp)) as [|Hne]; [left; assumption|right].
    rewrite (get_znth _ _ _ k 0 Gi) by (zl; lia). destruct (k <? zlen kp) eqn:Ek.
    + rewrite (get_znth _ _ _ k 0 Gi') by (zl; lia). rewrite !znth_app1 by lia. reflexivity.
    + rewrite (get_znth _ _ _ (k - 1) 0 Gi') by (zl; lia). rewrite !znth_app2 by lia. rewrite znth_consS by lia. do 2 f_equal. lia.
  - (* get *) destruct (zsplit_mid xs pos ltac:(lia)) as [p [y [q [-> Hp]]]].
    rewrite (grep_get x ks vs (p ++ y :: q) pos y HG HP) by (zl; lia). cbn [bind].
    exists (LItem y), x, ks, vs, (p ++ y :: q). subst pos. rewrite znth_app_exact. split; [reflexivity|]. split; [assumption|]. split; [assumption|].
    split; [constructor|]. split; [lia|]. split; [lia|]. split; [split; reflexivity|auto].
Qed.

Lemma gexec_ok al x ks vs xs o : grep x ks vs -> pick vs ks xs -> zlen vs < im ->
  (2 * zlen ks + 4) * ksz < 2 ^ 64 -> (2 * zlen vs + 4) * isz < 2 ^ 64 -> lvalid (tgilist_getsize x) o ->
  exists r x' ks' vs' xs', gexec im ksz isz al x o = Ret (r, x') /\ grep x' ks' vs' /\ pick vs' ks' xs' /\
    lspec (both_mem al) xs o r xs' /\ zlen vs' <= zlen vs + 1 /\ zlen ks' <= zlen ks + 1 /\ slots_kept x x' o.
Proof.
  intros HG HP H1 H2 H3 HV. destruct (gexec_full al x ks vs xs o HG HP H1 H2 H3 HV) as (r & x' & ks' & vs' & xs' & E1 & E2 & E3 & E4 & E5 & E6 & E7 & _).
  exists r, x', ks', vs', xs'. auto 10.
Qed.

Lemma grun_ok h : forall x ks vs xs, grep x ks vs -> pick vs ks xs -> zlen vs + zlen h <= im ->
  (2 * (zlen ks + zlen h) + 4) * ksz < 2 ^ 64 -> (2 * (zlen vs + zlen h) + 4) * isz < 2 ^ 64 -> gcaller_ok im ksz isz x h ->
  exists rs x' ks' vs' xs', grun im ksz isz x h = Ret (rs, x') /\ grep x' ks' vs' /\ pick vs' ks' xs' /\ lspec_run xs rs xs' /\
    zlen vs' <= zlen vs + zlen h /\ zlen ks' <= zlen ks + zlen h /\
    map fst rs = map (fun p => (both_mem (fst p), snd p)) h.
Proof.
  induction h as [|[al o] h IH]; intros x ks vs xs HG HP HM HLk HLv HC; cbn [grun].
  - exists [], x, ks, vs, xs. split; [reflexivity|]. split; [assumption|]. split; [assumption|]. split; [constructor|]. zl. split; [lia|]. split; [lia|reflexivity].
  - cbn [gcaller_ok] in HC. destruct HC as [HV HC]. zl. zpos.
    destruct (gexec_ok al x ks vs xs o HG HP ltac:(lia) ltac:(nia) ltac:(nia) HV) as [r [x' [ks' [vs' [xs' [E [HG' [HP' [HS [H1 [H2 _]]]]]]]]]]].
    rewrite E in *. cbn [bind].
    destruct (IH x' ks' vs' xs' HG' HP' ltac:(lia) ltac:(nia) ltac:(nia) HC) as [rs [x2 [ks2 [vs2 [xs2 [-> [HG2 [HP2 [HS2 [H3 [H4 HM2]]]]]]]]]]]. cbn [bind].
    do 5 eexists. split; [reflexivity|]. split; [eassumption|]. split; [eassumption|]. split; [econstructor; eauto|]. split; [lia|]. split; [lia|]. cbn [map fst snd]. now rewrite HM2.
Qed.
(** with the deleted items: the store holds the items and the deleted ones *)
Lemma grun_log h : forall x ks vs xs D, grep x ks vs -> pick vs ks xs -> zlen vs + zlen h <= im -> Permutation vs (xs ++ D) ->
  (2 * (zlen ks + zlen h) + 4) * ksz < 2 ^ 64 -> (2 * (zlen vs + zlen h) + 4) * isz < 2 ^ 64 -> gcaller_ok im ksz isz x h ->
  exists rs x' ks' vs' xs' D', grun im ksz isz x h = Ret (rs, x') /\ grep x' ks' vs' /\ pick vs' ks' xs' /\ lspec_log xs rs xs' D' /\ Permutation vs' (xs' ++ D' ++ D).
Proof.
  induction h as [|[al o] h IH]; intros x ks vs xs D HG HP HM HD HLk HLv HC; cbn [grun].
  - exists [], x, ks, vs, xs, []. split; [reflexivity|]. split; [assumption|]. split; [assumption|]. split; [constructor|assumption].
  - cbn [gcaller_ok] in HC. destruct HC as [HV HC]. zl. zpos.
    destruct (gexec_full al x ks vs xs o HG HP ltac:(lia) ltac:(nia) ltac:(nia) HV) as (r & x' & ks' & vs' & xs' & E & HG' & HP' & HS & H1 & H2 & _ & HD').
    rewrite E in *. cbn [bind].
    destruct (IH x' ks' vs' xs' (lgone xs o ++ D) HG' HP' ltac:(lia) (HD' _ HD) ltac:(nia) ltac:(nia) HC) as (rs & x2 & ks2 & vs2 & xs2 & D2 & -> & HG2 & HP2 & HS2 & H3). cbn [bind].
    do 6 eexists. split; [reflexivity|]. split; [eassumption|]. split; [eassumption|]. split; [econstructor; eauto|].
    etransitivity; [exact H3|]. apply Permutation_app_head. rewrite !app_assoc. apply Permutation_app_tail, Permutation_app_comm.
Qed.
Lemma ginit : grep tgilist_init [] [].
Proof. split; try apply init_trep; constructor. Qed.
Lemma ghistory h : zlen h <= im -> (2 * zlen h + 4) * ksz < 2 ^ 64 -> (2 * zlen h + 4) * isz < 2 ^ 64 -> gcaller_ok im ksz isz tgilist_init h ->
  exists rs x xs, grun im ksz isz tgilist_init h = Ret (rs, x) /\ lspec_run [] rs xs /\ greads x xs /\
    map fst rs = map (fun p => (both_mem (fst p), snd p)) (h : list ((talloc Z * talloc A) * lop A)).
Proof.
  intros H1 H2 H3 HC. destruct (grun_ok h _ _ _ [] ginit) as [rs [x [ks [vs [xs [E [HG [HP [HS [_ [_ HM]]]]]]]]]]]; try (change (zlen []) with 0); try assumption; try lia; [constructor|].
  exists rs, x, xs. split; [assumption|]. split; [assumption|]. split; [|assumption]. split.
  - unfold tgilist_getsize. rewrite (r_cnt _ _ _ (g_idx _ _ _ HG)). eapply pick_len; eauto.
  - intros i d Hi'. eapply grep_get; eauto.
Qed.
(** one more operation after any history: nothing moves *)
Lemma gslots_history h rs (x : tgi A) al (o : lop A) : zlen h < im -> (2 * (zlen h + 1) + 4) * ksz < 2 ^ 64 -> (2 * (zlen h + 1) + 4) * isz < 2 ^ 64 ->
  gcaller_ok im ksz isz tgilist_init h -> grun im ksz isz tgilist_init h = Ret (rs, x) -> lvalid (tgilist_getsize x) o ->
  exists r x', gexec im ksz isz al x o = Ret (r, x') /\ slots_kept x x' o.
Proof.
  intros H1 H2 H3 HC HR HV. zpos. destruct (grun_ok h _ _ _ [] ginit) as [rs' [x0 [ks [vs [xs [E [HG [HP [HS [L1 [L2 HM]]]]]]]]]]]; try (change (zlen []) with 0); try assumption; try lia; try nia; [constructor|].
  rewrite E in HR. injection HR as <- <-. change (zlen []) with 0 in *.
  destruct (gexec_ok al x0 ks vs xs o HG HP ltac:(lia) ltac:(nia) ltac:(nia) HV) as [r [x' [ks' [vs' [xs' [E' [_ [_ [_ [_ [_ HK]]]]]]]]]]]. eauto.
Qed.
End P.
