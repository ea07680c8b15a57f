(** Proofs about adding an item of a tglist or tgilist to the same list. *)
From Verif Require Import Base Cstr M_tglist S_tglist D_tglist P_tglist P_tgilist M_alias.
From Verif Require P_alias.

Lemma znth_indep {A} (d e : A) xs i : 0 <= i < zlen xs -> znth d xs i = znth e xs i.
Proof. intros H. destruct (zsplit_mid xs i H) as [p [y [q [-> <-]]]]. now rewrite !znth_app_exact. Qed.

Section P.
Context {A : Type}.
Variable isz : Z.
Hypothesis Hisz : 1 <= isz.

Lemma treads_unique (l : tgl A) xs ys : treads l xs -> treads l ys -> xs = ys.
Proof using Type.
  intros [C1 R1] [C2 R2]. destruct xs as [|d xs].
  - symmetry. apply zlen_0. rewrite <- C2, C1. reflexivity.
  - apply (znth_ext d); [congruence|]. intros i Hi. specialize (R1 i d Hi). specialize (R2 i d ltac:(lia)). congruence.
Qed.
Lemma add_own_ok al (l : tgl A) xs i d : trep isz l xs -> (2 * zlen xs + 4) * isz < 2 ^ 64 -> 0 <= i < zlen xs ->
  tglist_add_own isz al l i = tglist_add isz al l (znth d xs i).
Proof using All.
  intros HT HL Hi. unfold tglist_add_own, tglist_add, tglist_prepare_addition.
  destruct (grow_ok isz Hisz al l xs HT HL) as [r [l' [-> [[-> [-> Ha]]|[-> [HT' Hlt]]]]]]; cbn [Z.eqb negb]; [reflexivity|].
  destruct (u64 (tcnt l' + 1) =? 0); [reflexivity|]. cbn [Z.eqb negb].
  pose proof (get_znth isz l' xs i d HT' Hi) as HG. unfold tglist_get in *. cbn [tmem]. rewrite HG. reflexivity.
Qed.
(** the state in which ITEM is evaluated by tglist_insert *)
Definition room (l : tgl A) (pos : Z) : out (Z * tgl A) :=
  let* (r, l) := tglist_memmove_impl l (u64 (pos + 1)) (-1) isz in Ret (r, mkTg (u64 (tcnt l + 1)) (tcapa l) (tmem l)).
Lemma troom_ok (l : tgl A) p q : trep isz l (p ++ q) -> zlen (p ++ q) < tcapa l ->
  exists l2 a, room l (zlen p) = Ret (1, l2) /\ trep isz l2 (p ++ a :: q) /\ (forall b q', q = b :: q' -> a = b) /\ tcnt l2 <> 0.
Proof using All.
  intros HT Hlt. unfold room. pose proof HT as [[j E] Hc Hk Hs Hp]. pose proof (trep_u64 isz Hisz _ _ HT) as [_ Hu]. zl. zpos.
  assert (HB : tcapa l < 2 ^ 64) by nia.
  rewrite (u64_id (zlen p + 1)) by lia. rewrite (memmove_ok isz Hisz l (p ++ q)) by (try assumption; zl; try lia; nia).
  destruct j as [|y j]; [rewrite app_nil_r in E; rewrite E in Hk; zl; lia|].
  rewrite E. unfold zmove. replace (zlen p + 1 + -1) with (zlen p) by lia. zl.
  rewrite <- app_assoc. rewrite zreads_at by lia. cbn [bind].
  destruct (zsplit 1 (q ++ [y])) as [a [b [Eab Ha]]]; [zl; lia|].
  assert (EQ : p ++ q ++ y :: j = (p ++ a) ++ b ++ j).
  { change (y :: j) with ([y] ++ j). rewrite <- app_assoc. f_equal. rewrite !app_assoc. f_equal. exact Eab. }
  rewrite EQ. assert (Hbq : zlen b = zlen q). { assert (zlen (q ++ [y]) = zlen (a ++ b)) by congruence. zl. lia. }
  rewrite zwrites_at by (zl; lia). cbn [bind tcnt tcapa tmem]. rewrite Hc, u64_id by (zl; lia).
  destruct a as [|a0 a]; [cbn in Ha; lia|]. assert (a = []) by (zl; zpos; apply zlen_0; lia). subst a.
  eexists. exists a0. split; [reflexivity|]. split.
  { rewrite E in Hk. split; cbn [tmem tcnt tcapa]; auto.
    - exists j. rewrite <- !app_assoc. reflexivity.
    - zl. lia.
    - zl. lia. }
  split; [|cbn [tcnt]; zl; lia]. intros b0 q' ->. cbn in Eab. congruence.
Qed.
Lemma insert_own_ok al (l : tgl A) p q i d : trep isz l (p ++ q) -> (2 * zlen (p ++ q) + 4) * isz < 2 ^ 64 -> 0 <= i < zlen (p ++ q) ->
  tglist_insert_own isz al l i (zlen p) = tglist_insert isz al l (znth d (p ++ q) (if i <=? zlen p then i else i - 1)) (zlen p).
Proof using All.
  intros HT HL Hi. unfold tglist_insert_own, tglist_insert.
  destruct (grow_ok isz Hisz al l _ HT HL) as [r [l' [-> [[-> [-> Ha]]|[-> [HT' Hlt]]]]]]; cbn [Z.eqb negb]; [reflexivity|].
  destruct (troom_ok l' p q HT' Hlt) as [l2 [a [ER [HT2 [Hq Hn]]]]]. unfold room in ER.
  destruct (tglist_memmove_impl _ _ _ _) as [[r l1]| |]; cbn [bind] in *; try discriminate. injection ER as -> ER. rewrite ER. cbn [Z.eqb orb].
  replace (tcnt l2 =? 0) with false by lia.
  rewrite (get_znth isz l2 _ i d HT2) by (zl; lia). cbn [bind]. f_equal. destruct (i <=? zlen p) eqn:El.
  - destruct (Z.eq_dec i (zlen p)) as [->|].
    + destruct q as [|b q]; [zl; cbn in Hi; lia|]. rewrite (Hq b q eq_refl). now rewrite !znth_app_exact.
    + apply P_alias.znth_ins_lt. lia.
  - apply P_alias.znth_ins_gt. lia.
Qed.
Section H.
Variables (h : list (talloc A * lop A)) (rs : list (bool * lop A * lresp A)) (l : tgl A) (xs : list A).
Hypothesis HB : (2 * (zlen h + 1) + 4) * isz < 2 ^ 64.
Hypothesis HC : tcaller_ok isz tglist_init h.
Hypothesis HR : trun isz tglist_init h = Ret (rs, l).
Hypothesis HX : treads l xs.
Lemma lspec_run_len (ys : list A) rs' zs : lspec_run ys rs' zs -> zlen zs <= zlen ys + zlen rs'.
Proof using Type. induction 1 as [|ok xs0 o r xs1 rs0 xs2 H1 H2 IH]; [zl; lia|]. apply lspec_len in H1. zl. lia. Qed.
Lemma reach_trep : trep isz l xs /\ (2 * zlen xs + 4) * isz < 2 ^ 64.
Proof using All.
  zpos. destruct (trun_ok isz Hisz h _ _ (init_trep isz) ltac:(change (zlen []) with 0; nia) HC) as [rs' [l' [xs' [E [HT [HS HM]]]]]].
  rewrite HR in E. injection E as <- <-. assert (xs = xs') by (eapply treads_unique; [exact HX|eapply trep_reads; exact HT]). subst xs'.
  split; [assumption|]. apply lspec_run_len in HS. zl. assert (zlen rs = zlen h) by (rewrite <- (zlen_map fst rs), HM, zlen_map; reflexivity). nia.
Qed.
Lemma tadd_own_reach al i d : 0 <= i < zlen xs ->
  exists r l', tglist_add_own isz al l i = Ret (r, l') /\ ((r = 0 /\ l' = l /\ has_mem al = false) \/ (r = 1 /\ treads l' (xs ++ [znth d xs i]))).
Proof using All.
  intros Hi. destruct reach_trep as [HT HL]. rewrite (add_own_ok al l xs i d) by assumption.
  destruct (add_ok isz Hisz al l xs (znth d xs i) HT HL) as [r [l' [-> H]]]. do 2 eexists. split; [reflexivity|].
  destruct H as [H|[-> H]]; [now left|right]. split; [reflexivity|]. eapply trep_reads; exact H.
Qed.
Lemma tinsert_own_reach al i pos d : 0 <= i < zlen xs -> 0 <= pos <= zlen xs ->
  exists r l', tglist_insert_own isz al l i pos = Ret (r, l') /\
    ((r = 0 /\ l' = l /\ has_mem al = false) \/ (r = 1 /\ treads l' (ztake pos xs ++ znth d xs (if i <=? pos then i else i - 1) :: zdrop pos xs))).
Proof using All.
  intros Hi Hp. destruct reach_trep as [HT HL]. destruct (zsplit pos xs) as [p [q [E Hl]]]; [lia|]. subst pos.
  rewrite E in HT, HL, Hi. pose proof (insert_own_ok al l p q i d HT HL Hi) as EO. rewrite EO.
  destruct (insert_ok isz Hisz al l p q (znth d (p ++ q) (if i <=? zlen p then i else i - 1)) (zlen p) HT HL eq_refl) as [r [l' [-> H]]]. do 2 eexists. split; [reflexivity|].
  destruct H as [H|[-> H]]; [now left|right]. split; [reflexivity|].
  assert (T1 : ztake (zlen p) xs = p) by (rewrite E; apply ztake_app_exact).
  assert (T2 : zdrop (zlen p) xs = q) by (rewrite E; apply zdrop_app_exact).
  rewrite T1, T2, E. eapply trep_reads; exact H.
Qed.
End H.
End P.

Section G.
Context {A : Type}.
Variables im ksz isz : Z.
Hypothesis Hk : 1 <= ksz.
Hypothesis Hi : 1 <= isz.

Lemma greads_unique (x : tgi A) xs ys : greads x xs -> greads x ys -> xs = ys.
Proof using Type.
  intros [C1 R1] [C2 R2]. destruct xs as [|d xs].
  - symmetry. apply zlen_0. rewrite <- C2, C1. reflexivity.
  - apply (znth_ext d); [congruence|]. intros i Hx. specialize (R1 i d Hx). specialize (R2 i d ltac:(lia)). congruence.
Qed.
(** the value part of both operations *)
Lemma vadd_own_eq av (ix : tgl Z) (v : tgl A) ks vs i k y : trep ksz ix ks -> trep isz v vs -> (2 * zlen vs + 4) * isz < 2 ^ 64 ->
  tglist_get ix i = Ret k -> 0 <= k < zlen vs -> (forall d, znth d vs k = y) ->
  (let '(ok, v) := tglist_prepare_addition isz av v in
   if negb (ok =? 0) then let* k := tglist_get ix i in let* y := tglist_get v k in tglist_set v y (u64 (tcnt v - 1)) else Ret (0, v)) = tglist_add isz av v y.
Proof using All.
  intros HTi HTv HL EK Hkr HY. pose proof (add_own_ok isz Hi av v vs k y HTv HL Hkr) as E. rewrite HY in E. rewrite <- E. unfold tglist_add_own.
  destruct (tglist_prepare_addition isz av v) as [ok v1]. destruct (negb (ok =? 0)); [|reflexivity]. now rewrite EK.
Qed.
Lemma gadd_own_eq ai av (x : tgi A) ks vs xs i d : grep ksz isz x ks vs -> pick vs ks xs -> (2 * zlen ks + 4) * ksz < 2 ^ 64 -> (2 * zlen vs + 4) * isz < 2 ^ 64 -> 0 <= i < zlen xs ->
  tgilist_add_own im ksz isz ai av x i = tgilist_add im ksz isz ai av x (znth d xs i).
Proof using All.
  intros HG HP HLk HLv Hx. pose proof (pick_len _ _ _ HP) as HLen. pose proof HG as [Gi Gv Gr Gd]. unfold tgilist_add_own, tgilist_add.
  destruct (add_ok ksz Hk ai (gidx x) ks (tcnt (gval x) mod im) Gi HLk) as [r [ix [-> [[-> [-> Ha]]|[-> Gi']]]]]; cbn [bind Z.eqb]; [reflexivity|].
  pose proof (Forall_znth _ 0 ks i Gr ltac:(lia)) as HRk. cbn beta in HRk.
  assert (EK : tglist_get ix i = Ret (znth 0 ks i)) by (rewrite (get_znth _ _ _ i 0 Gi') by (zl; lia); now rewrite znth_app1 by lia).
  assert (HY : forall d', znth d' vs (znth 0 ks i) = znth d xs i).
  { intros d'. rewrite (pick_znth vs ks xs i d' 0 HP Hx). now apply znth_indep. }
  pose proof (vadd_own_eq av ix (gval x) _ vs i _ _ Gi' Gv HLv EK HRk HY) as E.
  destruct (tglist_prepare_addition isz av (gval x)) as [ok v1]. rewrite E. reflexivity.
Qed.
Lemma gins_own_eq ai av (x : tgi A) ks vs xs i pos d : grep ksz isz x ks vs -> pick vs ks xs -> (2 * zlen vs + 4) * isz < 2 ^ 64 -> 0 <= i < zlen xs ->
  tgilist_insert_own im ksz isz ai av x i pos = tgilist_insert im ksz isz ai av x (znth d xs i) pos.
Proof using All.
  intros HG HP HLv Hx. pose proof (pick_len _ _ _ HP) as HLen. pose proof HG as [Gi Gv Gr Gd]. unfold tgilist_insert_own, tgilist_insert.
  pose proof (Forall_znth _ 0 ks i Gr ltac:(lia)) as HRk. cbn beta in HRk.
  assert (EK : tglist_get (gidx x) i = Ret (znth 0 ks i)) by (apply (get_znth ksz _ ks); auto; lia).
  assert (HY : forall d', znth d' vs (znth 0 ks i) = znth d xs i).
  { intros d'. rewrite (pick_znth vs ks xs i d' 0 HP Hx). now apply znth_indep. }
  pose proof (vadd_own_eq av (gidx x) (gval x) _ vs i _ _ Gi Gv HLv EK HRk HY) as E.
  destruct (tglist_prepare_addition isz av (gval x)) as [ok v1]. rewrite E. reflexivity.
Qed.
Section H.
Variables (h : list ((talloc Z * talloc A) * lop A)) (rs : list (bool * lop A * lresp A)) (x : tgi A) (xs : list A).
Hypothesis HM : zlen h < im.
Hypothesis HBk : (2 * (zlen h + 1) + 4) * ksz < 2 ^ 64.
Hypothesis HBi : (2 * (zlen h + 1) + 4) * isz < 2 ^ 64.
Hypothesis HC : gcaller_ok im ksz isz tgilist_init h.
Hypothesis HR : grun im ksz isz tgilist_init h = Ret (rs, x).
Hypothesis HX : greads x xs.
Lemma reach_grep : exists ks vs, grep ksz isz x ks vs /\ pick vs ks xs /\ zlen vs <= zlen h /\ zlen ks <= zlen h.
Proof using All.
  zpos. destruct (grun_ok im ksz isz Hk Hi h _ _ _ [] (ginit ksz isz)) as [rs' [x0 [ks [vs [xs' [E [HG [HP [HS [L1 [L2 _]]]]]]]]]]]; try (change (zlen []) with 0); try assumption; try lia; try nia; [constructor|].
  rewrite HR in E. injection E as <- <-. change (zlen []) with 0 in *.
  assert (GR : greads x xs').
  { split; [unfold tgilist_getsize; rewrite (r_cnt _ _ _ (g_idx _ _ _ _ _ HG)); eapply pick_len; eauto|]. intros. eapply grep_get; eauto. }
  rewrite (greads_unique _ _ _ HX GR). exists ks, vs. repeat split; try apply HG; auto; lia.
Qed.
Lemma gown_reach al o i d : 0 <= i < zlen xs ->
  (exists pos, 0 <= pos <= zlen xs /\ o = LIns (znth d xs i) pos) \/ o = LAdd (znth d xs i) ->
  exists r x' xs', gexec im ksz isz al x o = Ret (r, x') /\ greads x' xs' /\ lspec (both_mem al) xs o r xs'.
Proof using All.
  intros Hx Ho. destruct reach_grep as [ks [vs [HG [HP [L1 L2]]]]]. zpos. pose proof (pick_len _ _ _ HP) as HLen.
  destruct (gexec_ok im ksz isz Hk Hi al x ks vs xs o HG HP ltac:(lia) ltac:(nia) ltac:(nia)) as [r [x' [ks' [vs' [xs' [E [HG' [HP' [HS _]]]]]]]]].
  { unfold tgilist_getsize. rewrite (r_cnt _ _ _ (g_idx _ _ _ _ _ HG)). destruct Ho as [[pos [Hp ->]]| ->]; cbn [lvalid]; [lia|exact I]. }
  exists r, x', xs'. split; [assumption|]. split; [|assumption]. split; [unfold tgilist_getsize; rewrite (r_cnt _ _ _ (g_idx _ _ _ _ _ HG')); eapply pick_len; eauto|]. intros. eapply grep_get; eauto.
Qed.
Lemma gadd_own_reach ai av i d : 0 <= i < zlen xs ->
  exists r x', tgilist_add_own im ksz isz ai av x i = Ret (r, x') /\
    ((r = 0 /\ greads x' xs /\ has_mem ai && has_mem av = false) \/ (r = 1 /\ greads x' (xs ++ [znth d xs i]))).
Proof using All.
  intros Hx. destruct reach_grep as [ks [vs [HG [HP [L1 L2]]]]]. zpos. rewrite (gadd_own_eq ai av x ks vs xs i d) by (auto; nia).
  destruct (gown_reach (ai, av) (LAdd (znth d xs i)) i d Hx ltac:(now right)) as [r [x' [xs' [E [HG' HS]]]]]. cbn [gexec fst snd] in E.
  destruct (tgilist_add _ _ _ _ _ _ _) as [[r0 x0]| |]; cbn [bind] in E; try discriminate. injection E as <- <-. exists r0, x0. split; [reflexivity|].
  inversion HS; subst; [right|left]; auto.
Qed.
Lemma gins_own_reach ai av i pos d : 0 <= i < zlen xs -> 0 <= pos <= zlen xs ->
  exists r x', tgilist_insert_own im ksz isz ai av x i pos = Ret (r, x') /\
    ((r = 0 /\ greads x' xs /\ has_mem ai && has_mem av = false) \/ (r = 1 /\ greads x' (ztake pos xs ++ znth d xs i :: zdrop pos xs))).
Proof using All.
  intros Hx Hp. destruct reach_grep as [ks [vs [HG [HP [L1 L2]]]]]. zpos. rewrite (gins_own_eq ai av x ks vs xs i pos d) by (auto; nia).
  destruct (gown_reach (ai, av) (LIns (znth d xs i) pos) i d Hx ltac:(left; eauto)) as [r [x' [xs' [E [HG' HS]]]]]. cbn [gexec fst snd] in E.
  destruct (tgilist_insert _ _ _ _ _ _ _ _) as [[r0 x0]| |]; cbn [bind] in E; try discriminate. injection E as <- <-. exists r0, x0. split; [reflexivity|].
  inversion HS; subst; [right|left]; auto. split; [reflexivity|]. rewrite ztake_app_exact, zdrop_app_exact.
  match goal with H : greads x0 _ |- _ => exact H end.
Qed.
End H.
End G.
