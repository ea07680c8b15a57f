(** Proofs about tglist. *)
From Verif Require Import Base Cstr M_tglist S_tglist D_tglist.

Section P.
Context {A : Type}.
Variable isz : Z.
Hypothesis Hisz : 1 <= isz.

Record trep (l : tgl A) (xs : list A) : Prop := mkTrep {
  r_mem : exists junk, tmem l = xs ++ junk;
  r_cnt : tcnt l = zlen xs;
  r_capa : zlen (tmem l) = tcapa l;
  r_size : tcapa l * isz < 2 ^ 64;
  r_pow : tcapa l = 0 \/ exists k, 0 <= k /\ tcapa l = 4 * 2 ^ k }.

Lemma trep_le l xs : trep l xs -> zlen xs <= tcapa l.
Proof. intros [[j E] Hc Hk _ _]. rewrite E in Hk. zl. zpos. lia. Qed.
Lemma trep_u64 l xs : trep l xs -> 0 <= zlen xs * isz < 2 ^ 64 /\ zlen xs < 2 ^ 64.
Proof. intros H. pose proof (trep_le _ _ H). pose proof (r_size _ _ H). zpos. nia. Qed.

Lemma zlen_tfresh (junk : Z -> A) i n : 0 <= n -> zlen (tfresh junk i n) = n.
Proof. intros. unfold tfresh, zlen. rewrite map_length, seq_length. lia. Qed.

Lemma grow_ok al l xs : trep l xs -> (2 * zlen xs + 4) * isz < 2 ^ 64 ->
  exists r l', tglist_grow_if_needed isz al l = (r, l') /\
   ((r = 0 /\ l' = l /\ has_mem al = false) \/ (r = 1 /\ trep l' xs /\ zlen xs < tcapa l')).
Proof.
  intros HT HL. pose proof (trep_le _ _ HT) as Hle. pose proof HT as [[j E] Hc Hk Hs Hp]. zpos.
  unfold tglist_grow_if_needed. destruct (tcnt l =? tcapa l) eqn:Eq.
  - destruct al as [junk|]; [|do 2 eexists; split; [reflexivity|]; left; auto].
    do 2 eexists. split; [reflexivity|]. right. split; [reflexivity|].
    set (newsz := if tcapa l =? 0 then 4 else u64 (tcapa l * 2)).
    assert (HN : zlen xs < newsz /\ newsz <= 2 * zlen xs + 4 /\ exists k, 0 <= k /\ newsz = 4 * 2 ^ k).
    { unfold newsz. destruct (tcapa l =? 0) eqn:E0.
      - split; [lia|]. split; [lia|]. exists 0. split; [lia|reflexivity].
      - rewrite u64_id by nia. split; [lia|]. split; [lia|]. destruct Hp as [Hp|[k [Hk0 Hp]]]; [lia|].
        exists (k + 1). split; [lia|]. rewrite Z.pow_add_r by lia. change (2 ^ 1) with 2. lia. }
    destruct HN as [HN1 [HN2 HN3]].
    rewrite u64_id by nia. rewrite Z.div_mul by lia.
    assert (HLen : zlen (ztake newsz (tmem l) ++ tfresh junk (zlen (tmem l)) (newsz - zlen (tmem l))) = newsz).
    { rewrite zlen_app, ztake_all by lia. rewrite zlen_tfresh by lia. lia. }
    split; [|exact HN1]. split; cbn [tmem tcnt tcapa].
    + rewrite ztake_all by lia. rewrite E, <- app_assoc. eauto.
    + assumption.
    + exact HLen.
    + nia.
    + right. exact HN3.
  - do 2 eexists. split; [reflexivity|]. right. split; [reflexivity|]. split; [assumption|]. lia.
Qed.

Lemma memmove_ok l xs pos1 diff : trep l xs -> 0 <= pos1 -> pos1 * isz < 2 ^ 64 -> 0 <= pos1 + diff <= zlen xs ->
  tglist_memmove_impl l pos1 diff isz =
  (let* m := zmove (tmem l) pos1 (pos1 + diff) (zlen xs - (pos1 + diff)) in Ret (1, mkTg (tcnt l) (tcapa l) m)).
Proof.
  intros HT Hp1 Hp2 Hd. pose proof (trep_u64 _ _ HT) as [Hu Hu'].
  unfold tglist_memmove_impl. rewrite (r_cnt _ _ HT).
  rewrite (u64_id (pos1 * isz)), (u64_id (pos1 + diff)) by nia. rewrite (u64_id (zlen xs - _)) by lia. rewrite (u64_id (_ * isz)) by nia.
  replace (pos1 * isz + isz * diff) with ((pos1 + diff) * isz) by lia. rewrite !Z.mod_mul by lia. cbn [Z.eqb andb]. rewrite !Z.div_mul by lia. reflexivity.
Qed.

Lemma set_ok l p y q x : trep l (p ++ y :: q) -> exists l', tglist_set l x (zlen p) = Ret (1, l') /\ trep l' (p ++ x :: q).
Proof.
  intros [[j E] Hc Hk Hs Hp]. unfold tglist_set. rewrite E, <- app_assoc. cbn [app]. rewrite zwrite_at by reflexivity. cbn [bind].
  eexists. split; [reflexivity|]. rewrite E in Hk. split; cbn [tmem tcnt tcapa]; auto.
  - exists j. now rewrite <- app_assoc.
  - zl. lia.
  - zl. lia.
Qed.
Lemma get_ok l p y q : trep l (p ++ y :: q) -> tglist_get l (zlen p) = Ret y.
Proof. intros [[j E] _ _ _ _]. unfold tglist_get. rewrite E, <- app_assoc. cbn [app]. now rewrite zread_at. Qed.
Lemma get_znth l xs i d : trep l xs -> 0 <= i < zlen xs -> tglist_get l i = Ret (znth d xs i).
Proof. intros [[j E] _ _ _ _] Hi. unfold tglist_get. rewrite E. rewrite (zread_ok d) by (zl; zpos; lia). now rewrite znth_app1. Qed.

Lemma add_ok al l xs x : trep l xs -> (2 * zlen xs + 4) * isz < 2 ^ 64 ->
  exists r l', tglist_add isz al l x = Ret (r, l') /\ ((r = 0 /\ l' = l /\ has_mem al = false) \/ (r = 1 /\ trep l' (xs ++ [x]))).
Proof.
  intros HT HL. unfold tglist_add, tglist_prepare_addition.
  destruct (grow_ok al l xs HT HL) as [r [l' [-> [[-> [-> Ha]]|[-> [HT' Hlt]]]]]]; cbn [Z.eqb negb].
  - do 2 eexists. split; [reflexivity|]. left. auto.
  - pose proof HT' as [[j E] Hc Hk Hs Hp]. pose proof (trep_u64 _ _ HT') as [_ Hu]. zpos.
    assert (HB : tcapa l' < 2 ^ 64) by nia.
    rewrite Hc, (u64_id (zlen xs + 1)) by lia. replace (zlen xs + 1 =? 0) with false by lia. cbn [Z.eqb negb tcnt]. rewrite u64_id by lia.
    destruct j as [|y j]; [rewrite app_nil_r in E; rewrite E in Hk; lia|].
    unfold tglist_set. cbn [tmem]. replace (zlen xs + 1 - 1) with (zlen xs) by lia. rewrite E, zwrite_at by reflexivity. cbn [bind].
    do 2 eexists. split; [reflexivity|]. right. split; [reflexivity|]. rewrite E in Hk. split; cbn [tmem tcnt tcapa]; auto.
    + exists j. now rewrite <- app_assoc.
    + zl. lia.
    + zl. lia.
Qed.

Lemma insert_ok al l p q x pos : trep l (p ++ q) -> (2 * zlen (p ++ q) + 4) * isz < 2 ^ 64 -> pos = zlen p ->
  exists r l', tglist_insert isz al l x pos = Ret (r, l') /\ ((r = 0 /\ l' = l /\ has_mem al = false) \/ (r = 1 /\ trep l' (p ++ x :: q))).
Proof.
  intros HT HL ->. unfold tglist_insert.
  destruct (grow_ok al l _ HT HL) as [r [l' [-> [[-> [-> Ha]]|[-> [HT' Hlt]]]]]]; cbn [Z.eqb negb].
  - do 2 eexists. split; [reflexivity|]. left. auto.
  - pose proof HT' as [[j E] Hc Hk Hs Hp]. pose proof (trep_u64 _ _ HT') as [_ Hu]. zl. zpos.
    assert (HB : tcapa l' < 2 ^ 64) by nia.
    rewrite (u64_id (zlen p + 1)) by lia. rewrite (memmove_ok l' (p ++ q)) by (try assumption; zl; try lia; nia).
    destruct j as [|y j]; [rewrite app_nil_r in E; rewrite E in Hk; zl; lia|].
    rewrite E. unfold zmove. replace (zlen p + 1 + -1) with (zlen p) by lia. zl.
    rewrite <- app_assoc. rewrite zreads_at by lia. cbn [bind].
    destruct (zsplit 1 (q ++ [y])) as [a [b [Eab Ha]]]; [zl; lia|].
    assert (EQ : p ++ q ++ y :: j = (p ++ a) ++ b ++ j).
    { change (y :: j) with ([y] ++ j). rewrite <- app_assoc. f_equal. rewrite !app_assoc. f_equal. exact Eab. }
    rewrite EQ. assert (Hbq : zlen b = zlen q). { assert (zlen (q ++ [y]) = zlen (a ++ b)) by congruence. zl. lia. }
    rewrite zwrites_at by (zl; lia). cbn [bind tcnt tcapa tmem]. rewrite Hc, u64_id by (zl; lia).
    replace (zlen p + zlen q + 1 =? 0) with false by lia. cbn [Z.eqb orb].
    destruct a as [|a0 a]; [cbn in Ha; lia|]. assert (a = []) by (zl; zpos; apply zlen_0; lia). subst a.
    unfold tglist_set. cbn [tmem tcnt tcapa]. rewrite <- app_assoc. cbn [app]. rewrite zwrite_at by reflexivity. cbn [bind].
    do 2 eexists. split; [reflexivity|]. right. split; [reflexivity|]. rewrite E in Hk. split; cbn [tmem tcnt tcapa]; auto.
    + exists j. now rewrite <- app_assoc.
    + zl. lia.
    + zl. lia.
Qed.

Lemma delete_ok l p x q pos : trep l (p ++ x :: q) -> pos = zlen p ->
  exists l', tglist_delete isz l pos = Ret (1, l') /\ trep l' (p ++ q).
Proof.
  intros HT ->. unfold tglist_delete. pose proof HT as [[j E] Hc Hk Hs Hp]. pose proof (trep_u64 _ _ HT) as [Hu1 Hu]. zl. zpos.
  rewrite (memmove_ok l (p ++ x :: q)) by (try assumption; zl; try lia; nia).
  rewrite E. unfold zmove. zl. replace (zlen p + (1 + zlen q) - (zlen p + 1)) with (zlen q) by lia.
  assert (EQ : (p ++ x :: q) ++ j = (p ++ [x]) ++ q ++ j) by (rewrite <- !app_assoc; reflexivity).
  assert (ER : zreads ((p ++ x :: q) ++ j) (zlen p + 1) (zlen q) = Ret q) by (rewrite EQ; apply zreads_at; zl; lia).
  rewrite ER. cbn [bind].
  destruct (zsplit (zlen q) (x :: q)) as [a [b [Eab Ha]]]; [zl; lia|].
  assert (EQ2 : (p ++ x :: q) ++ j = p ++ a ++ b ++ j) by (rewrite Eab, <- !app_assoc; reflexivity).
  rewrite EQ2. rewrite zwrites_at by lia. cbn [bind Z.eqb negb tcnt tcapa tmem].
  eexists. split; [reflexivity|]. rewrite Hc. rewrite u64_id by lia. split; cbn [tmem tcnt tcapa]; auto.
  - exists (b ++ j). now rewrite <- app_assoc.
  - zl. lia.
  - rewrite E in Hk. assert (zlen (x :: q) = zlen (a ++ b)) by congruence. zl. lia.
Qed.

Lemma zsplit_mid (l : list A) n : 0 <= n < zlen l -> exists p x q, l = p ++ x :: q /\ zlen p = n.
Proof.
  intros Hn. destruct (zsplit n l) as [p [q [-> Hp]]]; [lia|]. destruct q as [|x q]; [zl; cbn in Hn; lia|]. eauto.
Qed.

Lemma texec_ok al l xs o : trep l xs -> (2 * zlen xs + 4) * isz < 2 ^ 64 -> lvalid (tcnt l) o ->
  exists r l' xs', texec isz al l o = Ret (r, l') /\ trep l' xs' /\ lspec (has_mem al) xs o r xs' /\ (r = LInt 0 -> l' = l).
Proof.
  intros HT HL HV. rewrite (r_cnt _ _ HT) in HV. destruct o as [x|x pos|x pos|pos|pos]; cbn [texec lvalid] in *.
  - destruct (add_ok al l xs x HT HL) as [r [l' [-> [[-> [-> Ha]]|[-> HT']]]]]; cbn [bind]; do 3 eexists; (split; [reflexivity|]); (split; [eassumption|]); split; auto.
    + now apply LsAddOom. + constructor. + discriminate.
  - destruct (zsplit pos xs) as [p [q [-> Hp]]]; [lia|]. subst pos.
    destruct (insert_ok al l p q x _ HT HL eq_refl) as [r [l' [-> [[-> [-> Ha]]|[-> HT']]]]]; cbn [bind]; do 3 eexists; (split; [reflexivity|]); (split; [eassumption|]); split; auto.
    + now apply LsInsOom. + constructor. + discriminate.
  - destruct (zsplit_mid xs pos HV) as [p [y [q [-> <-]]]].
    destruct (set_ok l p y q x HT) as [l' [-> HT']]; cbn [bind]; do 3 eexists; (split; [reflexivity|]); (split; [eassumption|]); split; [constructor|discriminate].
  - destruct (zsplit_mid xs pos HV) as [p [y [q [-> <-]]]].
    destruct (delete_ok l p y q _ HT eq_refl) as [l' [-> HT']]; cbn [bind]; do 3 eexists; (split; [reflexivity|]); (split; [eassumption|]); split; [constructor|discriminate].
  - destruct (zsplit_mid xs pos HV) as [p [y [q [-> <-]]]].
    rewrite (get_ok l p y q HT). cbn [bind]. do 3 eexists; (split; [reflexivity|]); (split; [eassumption|]); split; [constructor|discriminate].
Qed.
Lemma lspec_len ok xs o (r : lresp A) xs' : lspec ok xs o r xs' -> zlen xs' <= zlen xs + 1.
Proof. intros H. inversion H; subst; zl; lia. Qed.
Lemma trun_ok h : forall l xs, trep l xs -> (2 * (zlen xs + zlen h) + 4) * isz < 2 ^ 64 -> tcaller_ok isz l h ->
  exists rs l' xs', trun isz l h = Ret (rs, l') /\ trep l' xs' /\ lspec_run xs rs xs' /\ map fst rs = map (fun p => (has_mem (fst p), snd p)) (h : list (talloc A * lop A)).
Proof.
  induction h as [|[al o] h IH]; intros l xs HT HL HC; cbn [trun].
  - exists [], l, xs. repeat split; auto; try apply HT. constructor.
  - cbn [tcaller_ok] in HC. destruct HC as [HV HC]. zl. zpos.
    destruct (texec_ok al l xs o HT ltac:(nia) HV) as [r [l' [xs' [E [HT' [HS _]]]]]]. rewrite E in *. cbn [bind].
    pose proof (lspec_len _ _ _ _ _ HS). destruct (IH l' xs' HT' ltac:(nia) HC) as [rs [l2 [xs2 [-> [HT2 [HS2 HM]]]]]]. cbn [bind].
    do 3 eexists. split; [reflexivity|]. split; [eassumption|]. split; [econstructor; eauto|]. cbn [map fst snd]. now rewrite HM.
Qed.
Lemma trep_reads l xs : trep l xs -> treads l xs.
Proof. intros H. split; [apply r_cnt, H|]. intros. now apply get_znth. Qed.
Lemma trep_capa l xs : trep l xs -> tcapa_ok l.
Proof. intros H. split; [apply H|]. split; [rewrite (r_cnt _ _ H); eapply trep_le; eauto|apply H]. Qed.
Lemma init_trep : trep tglist_init [].
Proof. split; cbn; try reflexivity; try lia; eauto. Qed.

Lemma thistory (h : list (talloc A * lop A)) : (2 * zlen h + 4) * isz < 2 ^ 64 -> tcaller_ok isz tglist_init h ->
  exists rs l xs, trun isz tglist_init h = Ret (rs, l) /\ lspec_run [] rs xs /\ treads l xs /\ tcapa_ok l /\
    map fst rs = map (fun p => (has_mem (fst p), snd p)) (h : list (talloc A * lop A)).
Proof.
  intros HL HC. destruct (trun_ok h _ _ init_trep ltac:(cbn; exact HL) HC) as [rs [l [xs [E [HT [HS HM]]]]]].
  exists rs, l, xs. repeat split; auto; try (now apply (trep_reads l xs)); apply (trep_capa l xs HT).
Qed.
End P.
