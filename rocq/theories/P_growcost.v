(** Proofs about the reallocations along a history. *)
From Verif Require Import Base M_sblist S_sblist D_sblist P_sblist M_tglist S_tglist D_tglist P_tglist D_growcost.

(** doubling: the next sizes from the k-th reallocation on *)
Definition dbl (k : Z) : Z := if k =? 0 then 0 else 4 * 2 ^ (k - 1).
Lemma dbl_next k : 0 <= k -> dbl (k + 1) = if dbl k =? 0 then 4 else dbl k * 2.
Proof.
  intros H. unfold dbl. replace (k + 1 =? 0) with false by lia. replace (k + 1 - 1) with k by lia. destruct (k =? 0) eqn:E; [now replace k with 0 by lia|].
  assert (0 < 2 ^ (k - 1)) by (apply Z.pow_pos_nonneg; lia). replace (4 * 2 ^ (k - 1) =? 0) with false by lia. assert (2 ^ k = 2 * 2 ^ (k - 1)) as -> by (rewrite <- Z.pow_succ_r by lia; f_equal; lia). lia.
Qed.
Lemma dbl_pos k : 0 <= k -> 0 <= dbl k.
Proof. intros. unfold dbl. destruct (k =? 0) eqn:E; [lia|]. assert (0 < 2 ^ (k - 1)) by (apply Z.pow_pos_nonneg; lia). lia. Qed.

Lemma texec_capa A isz al (l l' : tgl A) o r : texec isz al l o = Ret (r, l') ->
  tcapa l' = tcapa l \/
  tcnt l = tcapa l /\ tcapa l' = (if tcapa l =? 0 then 4 else u64 (tcapa l * 2)) /\ match o with LAdd _ | LIns _ _ => True | _ => False end.
Proof.
  assert (GR : forall g l1, tglist_grow_if_needed isz al l = (g, l1) -> tcapa l1 = tcapa l \/ tcnt l = tcapa l /\ tcapa l1 = (if tcapa l =? 0 then 4 else u64 (tcapa l * 2))).
  { intros g l1 E. unfold tglist_grow_if_needed in E. destruct (tcnt l =? tcapa l) eqn:C; [|injection E as <- <-; auto]. destruct al; injection E as <- <-; [|auto]. cbn [tcapa]. right. split; [lia|reflexivity]. }
  assert (ST : forall l1 x pos r1 l2, tglist_set l1 x pos = Ret (r1, l2) -> tcapa l2 = @tcapa A l1).
  { intros l1 x pos r1 l2 E. unfold tglist_set in E. destruct (zwrite _ _ _); cbn [bind] in E; try discriminate. now injection E as <- <-. }
  assert (MV : forall l1 p d r1 l2, tglist_memmove_impl l1 p d isz = Ret (r1, l2) -> tcapa l2 = @tcapa A l1).
  { intros l1 p d r1 l2 E. unfold tglist_memmove_impl in E. destruct (_ && _ && _); [|discriminate]. destruct (zmove _ _ _ _); cbn [bind] in E; try discriminate. now injection E as <- <-. }
  intros E. destruct o as [x|x pos|x pos|pos|pos]; cbn [texec] in E.
  - unfold tglist_add, tglist_prepare_addition in E. destruct (tglist_grow_if_needed isz al l) as [g l1] eqn:G. specialize (GR _ _ eq_refl).
    destruct (negb (g =? 0)).
    + destruct (negb ((if u64 (tcnt l1 + 1) =? 0 then 0 else 1) =? 0)).
      * destruct (tglist_set _ _ _) as [[r1 l2]| |] eqn:T; cbn [bind] in E; try discriminate. injection E as <- <-. apply ST in T. cbn [tcapa] in T. rewrite T. destruct GR as [|[? ?]]; auto.
      * cbn [bind] in E. injection E as <- <-. cbn [tcapa]. destruct GR as [|[? ?]]; auto.
    + change (negb (0 =? 0)) with false in E. cbn [bind] in E. injection E as <- <-. destruct GR as [|[? ?]]; auto.
  - unfold tglist_insert in E. destruct (tglist_grow_if_needed isz al l) as [g l1] eqn:G. specialize (GR _ _ eq_refl). destruct (negb (g =? 0)).
    + destruct (tglist_memmove_impl _ _ _ _) as [[r1 l2]| |] eqn:M; cbn [bind] in E; try discriminate. apply MV in M. cbn [tcnt] in E. destruct ((r1 =? 0) || (u64 (tcnt l2 + 1) =? 0)).
      * cbn [bind] in E. injection E as <- <-. cbn [tcapa]. rewrite M. destruct GR as [|[? ?]]; auto.
      * destruct (tglist_set _ _ _) as [[r3 l3]| |] eqn:T; cbn [bind] in E; try discriminate. injection E as <- <-. apply ST in T. cbn [tcapa] in T. rewrite T, M. destruct GR as [|[? ?]]; auto.
    + cbn [bind] in E. injection E as <- <-. destruct GR as [|[? ?]]; auto.
  - destruct (tglist_set _ _ _) as [[r3 l3]| |] eqn:T; cbn [bind] in E; try discriminate. injection E as <- <-. left. eapply ST; eauto.
  - unfold tglist_delete in E. destruct (tglist_memmove_impl _ _ _ _) as [[r1 l2]| |] eqn:M; cbn [bind] in E; try discriminate. apply MV in M. destruct (negb (r1 =? 0)); cbn [bind] in E; injection E as <- <-; left; exact M.
  - destruct (tglist_get _ _); cbn [bind] in E; try discriminate. injection E as <- <-. auto.
Qed.

Lemma lspec_adds A b xs (o : lop A) r xs' : lspec b xs o r xs' -> zlen xs' <= zlen xs + match o with LAdd _ | LIns _ _ => 1 | _ => 0 end.
Proof. intros H. destruct H; zl; zpos; lia. Qed.
Definition tadd1 {A} (o : lop A) : Z := match o with LAdd _ | LIns _ _ => 1 | _ => 0 end.
Lemma tadds_cons A al (o : lop A) h : tadds ((al, o) :: h) = tadd1 o + tadds h.
Proof. unfold tadds, tadd1. cbn [filter snd]. destruct o; zl; lia. Qed.
Lemma tadds_nn A (h : list (talloc A * lop A)) : 0 <= tadds h <= zlen h.
Proof. unfold tadds. induction h as [|x h IH]; cbn [filter]; [cbn; lia|]. destruct (snd x); zl; lia. Qed.

Lemma tgrown_ok A isz (Hi : 1 <= isz) h : forall (l : tgl A) xs k d, trep isz l xs -> (2 * (zlen xs + zlen h) + 4) * isz < 2 ^ 64 -> tcaller_ok isz l h ->
  0 <= k -> tcapa l = dbl k -> zlen xs <= d ->
  exists c l', tgrown isz l h = Ret (c, l') /\ c = map (fun i => dbl (k + Z.of_nat i)) (seq 0 (length c)) /\ tcapa l' = dbl (k + zlen c) /\
    (c <> [] -> dbl (k + zlen c - 1) < d + tadds h) /\ exists rs, trun isz l h = Ret (rs, l').
Proof.
  induction h as [|[al o] h IH]; intros l xs k d T L C Hk E Hd; cbn [tgrown trun].
  - exists [], l. split; [reflexivity|]. split; [reflexivity|]. split; [now rewrite Z.add_0_r|]. split; [congruence|]. eexists; reflexivity.
  - cbn [tcaller_ok] in C. destruct C as [V C]. rewrite zlen_cons in L. pose proof (zlen_nonneg h). pose proof (zlen_nonneg xs). destruct (texec_ok isz Hi al l xs o T ltac:(nia) V) as (r & l' & xs' & EX & T' & SP & _). rewrite EX in *. cbn [bind].
    pose proof (lspec_adds _ _ _ _ _ _ SP) as LA. pose proof (lspec_len _ _ _ _ _ SP). rewrite tadds_cons. fold (tadd1 o) in LA. pose proof (tadds_nn _ h).
    destruct (texec_capa _ _ _ _ _ _ _ EX) as [CE|(CN & CE & CO)].
    + destruct (IH l' xs' k (d + tadd1 o) T' ltac:(nia) C Hk ltac:(congruence) ltac:(lia)) as (c & l2 & E2 & C2 & K2 & B2 & rs & R2). rewrite E2, R2. cbn [bind]. replace (tcapa l' =? tcapa l) with true by lia.
      exists c, l2. split; [reflexivity|]. split; [exact C2|]. split; [exact K2|]. split; [intros NE; specialize (B2 NE); lia|]. eexists; reflexivity.
    + assert (tcapa l' = dbl (k + 1)) as CE'.
      { rewrite CE, dbl_next by lia. rewrite E. destruct (dbl k =? 0); [reflexivity|]. apply u64_id. pose proof (dbl_pos k Hk). rewrite E in CN. rewrite (r_cnt _ _ _ T) in CN. nia. }
      destruct (IH l' xs' (k + 1) (d + tadd1 o) T' ltac:(nia) C ltac:(lia) CE' ltac:(lia)) as (c & l2 & E2 & C2 & K2 & B2 & rs & R2). rewrite E2, R2. cbn [bind].
      replace (tcapa l' =? tcapa l) with false. 2:{ rewrite CE', dbl_next by lia. rewrite E. pose proof (dbl_pos k Hk). destruct (dbl k =? 0) eqn:Z0; lia. }
      exists (tcapa l :: c), l2. split; [reflexivity|]. split.
      { cbn [length seq map]. rewrite Z.add_0_r, E. f_equal. rewrite C2 at 1. rewrite <- seq_shift, map_map. apply map_ext. intros i. f_equal. lia. }
      split; [rewrite K2, zlen_cons; f_equal; lia|]. split; [|eexists; reflexivity]. intros _. rewrite zlen_cons. destruct c as [|x c].
      * change (zlen (@nil Z)) with 0. match goal with |- dbl ?x < _ => replace x with k by lia end. rewrite <- E, <- CN, (r_cnt _ _ _ T). assert (tadd1 o = 1) by (unfold tadd1; destruct o; tauto || reflexivity). lia.
      * specialize (B2 ltac:(congruence)). match goal with |- dbl ?y < _ => replace y with (k + 1 + zlen (x :: c) - 1) by lia end. lia.
Qed.
Lemma total_dbl n : total (map (fun i => dbl (Z.of_nat i)) (seq 0 n)) = if dbl (Z.of_nat n) =? 0 then 0 else dbl (Z.of_nat n) - 4.
Proof.
  assert (TA : forall a b, total (a ++ b) = total a + total b) by (clear; unfold total; induction a as [|x a IH]; intros b; cbn [fold_right app]; [reflexivity|rewrite IH; lia]).
  induction n as [|n IH]; [reflexivity|]. rewrite seq_S, map_app, TA, IH. cbn [map total fold_right]. change (0 + n)%nat with n. replace (Z.of_nat (S n)) with (Z.of_nat n + 1) by lia. rewrite dbl_next by lia. pose proof (dbl_pos (Z.of_nat n)). destruct (dbl (Z.of_nat n) =? 0) eqn:E.
  - replace (dbl (Z.of_nat n)) with 0 by lia. reflexivity.
  - replace (dbl (Z.of_nat n) * 2 =? 0) with false by lia. lia.
Qed.
Lemma tgrown_thm A isz (h : list (talloc A * lop A)) : 1 <= isz -> (2 * zlen h + 4) * isz < 2 ^ 64 -> tcaller_ok isz tglist_init h ->
  exists c l rs, tgrown isz tglist_init h = Ret (c, l) /\ trun isz tglist_init h = Ret (rs, l) /\
    c = map (fun i => if Z.of_nat i =? 0 then 0 else 4 * 2 ^ (Z.of_nat i - 1)) (seq 0 (length c)) /\
    (c = [] -> tcapa l = 0) /\ (c <> [] -> tcapa l = 4 * 2 ^ (zlen c - 1) /\ total c = tcapa l - 4 /\ tcapa l < 2 * tadds h + 3).
Proof.
  intros Hi L C. destruct (tgrown_ok A isz Hi h tglist_init [] 0 0 (init_trep isz) ltac:(cbn; exact L) C ltac:(lia) eq_refl ltac:(cbn; lia)) as (c & l & E & CC & K & B & rs & R).
  exists c, l, rs. split; [exact E|]. split; [exact R|]. split; [exact CC|]. rewrite Z.add_0_l in K, B. split; [intros ->; exact K|]. intros NE. specialize (B NE). pose proof (zlen_nonneg c). assert (zlen c <> 0) by (intros Z0; apply zlen_0 in Z0; congruence).
  assert (K' : tcapa l = 4 * 2 ^ (zlen c - 1)) by (rewrite K; unfold dbl; now replace (zlen c =? 0) with false by lia). assert (0 < 2 ^ (zlen c - 1)) by (apply Z.pow_pos_nonneg; lia). split; [exact K'|]. split.
  - rewrite CC. cbn [Z.add]. rewrite total_dbl. fold (zlen c). rewrite <- K. now replace (tcapa l =? 0) with false by lia.
  - rewrite K. replace (zlen c) with (zlen c - 1 + 1) by lia. rewrite dbl_next by lia. pose proof (dbl_pos (zlen c - 1) ltac:(lia)). destruct (dbl (zlen c - 1) =? 0) eqn:Z0; [|lia]. pose proof (tadds_nn _ h). lia.
Qed.

(** sblist: block by block *)
Lemma exec_capa al l l' o r : exec al l o = Ret (r, l') ->
  capa l' = capa l \/
  cnt l = capa l /\ capa l' = u64 (capa l + bits l) /\ match o with Add _ | Addi _ | Insert _ _ => True | _ => False end.
Proof.
  assert (GR : forall g l1, sblist_grow_if_needed al l = (g, l1) -> capa l1 = capa l \/ cnt l = capa l /\ capa l1 = u64 (capa l + bits l)).
  { intros g l1 E. unfold sblist_grow_if_needed in E. destruct (cnt l =? capa l) eqn:C; [|injection E as <- <-; auto]. destruct al; injection E as <- <-; [|auto]. cbn [capa]. right. split; [lia|reflexivity]. }
  assert (ST : forall l1 x pos r1 l2, sblist_set l1 x pos = Ret (r1, l2) -> capa l2 = capa l1).
  { intros l1 x pos r1 l2 E. unfold sblist_set in E. destruct (cnt l1 <=? pos); [now injection E as <- <-|]. destruct (zwrites _ _ _); cbn [bind] in E; try discriminate. now injection E as <- <-. }
  assert (DL : forall l1 i l2, sblist_delete l1 i = Ret l2 -> capa l2 = capa l1).
  { intros l1 i l2 E. unfold sblist_delete in E. destruct (_ && _); [|now injection E as <-]. destruct (zmove _ _ _ _); cbn [bind] in E; try discriminate. now injection E as <-. }
  intros E. destruct o as [x|x|x pos|x pos|pos|]; cbn [exec] in E.
  - unfold sblist_add in E. destruct (sblist_grow_if_needed al l) as [g l1] eqn:G. specialize (GR _ _ eq_refl). destruct (g =? 0).
    + cbn [bind] in E. injection E as <- <-. destruct GR as [|[? ?]]; auto.
    + destruct (sblist_set _ _ _) as [[r1 l2]| |] eqn:T; cbn [bind] in E; try discriminate. injection E as <- <-. apply ST in T. cbn [inc_count capa] in T. rewrite T. destruct GR as [|[? ?]]; auto.
  - unfold sblist_addi in E. destruct (sblist_grow_if_needed al l) as [g l1] eqn:G. specialize (GR _ _ eq_refl). destruct (g =? 0).
    + cbn [bind] in E. injection E as <- <-. destruct GR as [|[? ?]]; auto.
    + destruct (sblist_set _ _ _) as [[r1 l2]| |] eqn:T; cbn [bind] in E; try discriminate. injection E as <- <-. apply ST in T. cbn [inc_count capa] in T. rewrite T. destruct GR as [|[? ?]]; auto.
  - destruct (sblist_set _ _ _) as [[r1 l2]| |] eqn:T; cbn [bind] in E; try discriminate. injection E as <- <-. left. eapply ST; eauto.
  - unfold sblist_insert in E. destruct (sblist_grow_if_needed al l) as [g l1] eqn:G. specialize (GR _ _ eq_refl). destruct (g =? 0).
    + cbn [bind] in E. injection E as <- <-. destruct GR as [|[? ?]]; auto.
    + destruct (zmove _ _ _ _); cbn [bind] in E; try discriminate.
      destruct (sblist_set _ _ _) as [[r1 l2]| |] eqn:T; cbn [bind] in E; try discriminate. injection E as <- <-. apply ST in T. cbn [inc_count capa] in T. rewrite T. destruct GR as [|[? ?]]; auto.
  - destruct (sblist_delete _ _) as [l2| |] eqn:T; cbn [bind] in E; try discriminate. injection E as <- <-. left. eapply DL; eauto.
  - unfold sblist_pop in E. destruct (0 <? cnt l).
    + destruct (sblist_delete _ _) as [l2| |] eqn:T; cbn [bind] in E; try discriminate. destruct (deref _ _); cbn [bind] in E; try discriminate. injection E as <- <-. left. eapply DL; eauto.
    + cbn [bind deref] in E. injection E as <- <-. auto.
Qed.
Definition sadd1 (o : op) : Z := match o with Add _ | Addi _ | Insert _ _ => 1 | _ => 0 end.
Lemma spec_adds b xs o r xs' : spec b xs o r xs' -> zlen xs' <= zlen xs + sadd1 o.
Proof. intros H. destruct H; cbn [sadd1]; zl; zpos; lia. Qed.
Lemma sadds_cons al o h : sadds ((al, o) :: h) = sadd1 o + sadds h.
Proof. unfold sadds, sadd1. cbn [filter snd]. destruct o; zl; lia. Qed.
Lemma sadds_nn h : 0 <= sadds h <= zlen h.
Proof. unfold sadds. induction h as [|x h IH]; cbn [filter]; [cbn; lia|]. destruct (snd x); zl; lia. Qed.

Lemma sgrown_ok h : forall lim l xs k d, Inv lim l xs -> zlen xs + zlen h + bits l <= lim -> lim * isz l < 2 ^ 64 -> caller_ok l h ->
  0 <= k -> capa l = k * bits l -> zlen xs <= d ->
  exists c l' rs xs', sgrown l h = Ret (c, l') /\ run l h = Ret (rs, l') /\ spec_run xs rs xs' /\ Inv lim l' xs' /\ c = map (fun i => (k + Z.of_nat i) * bits l) (seq 0 (length c)) /\ capa l' = (k + zlen c) * bits l /\
    (c <> [] -> (k + zlen c - 1) * bits l < d + sadds h).
Proof.
  induction h as [|[al o] h IH]; intros lim l xs k d I HB HL C Hk E Hd; cbn [sgrown run].
  - exists [], l, [], xs. split; [reflexivity|]. split; [reflexivity|]. split; [constructor|]. split; [exact I|]. split; [reflexivity|]. split; [rewrite E; change (zlen (@nil Z)) with 0; lia|]. congruence.
  - cbn [caller_ok] in C. destruct C as [V C]. rewrite zlen_cons in HB. pose proof (zlen_nonneg h). pose proof (zlen_nonneg xs). rewrite (i_cnt _ _ _ I) in V.
    destruct (exec_ok lim al l xs o I ltac:(lia) HL V) as (r & l' & xs' & EX & I' & SP & Hi & Hb & Hn). rewrite EX in *. cbn [bind].
    pose proof (spec_adds _ _ _ _ _ SP) as LA. rewrite sadds_cons. pose proof (sadds_nn h). pose proof (i_bits _ _ _ I) as B1.
    destruct (exec_capa _ _ _ _ _ EX) as [CE|(CN & CE & CO)].
    + destruct (IH lim l' xs' k (d + sadd1 o) I' ltac:(lia) ltac:(congruence) C Hk ltac:(congruence) ltac:(lia)) as (c & l2 & rs & xs2 & E2 & R2 & S2 & I2 & C2 & K2 & B2). rewrite E2, R2. cbn [bind]. replace (capa l' =? capa l) with true by lia. rewrite Hb in *.
      exists c, l2. do 2 eexists. split; [reflexivity|]. split; [reflexivity|]. split; [econstructor; eauto|]. split; [exact I2|]. split; [exact C2|]. split; [exact K2|]. intros NE; specialize (B2 NE); lia.
    + assert (capa l' = (k + 1) * bits l) as CE'.
      { rewrite CE, E. rewrite u64_id; [lia|]. rewrite <- E, <- CN, (i_cnt _ _ _ I). pose proof (i_isz _ _ _ I). nia. }
      destruct (IH lim l' xs' (k + 1) (d + sadd1 o) I' ltac:(lia) ltac:(congruence) C ltac:(lia) ltac:(congruence) ltac:(lia)) as (c & l2 & rs & xs2 & E2 & R2 & S2 & I2 & C2 & K2 & B2). rewrite E2, R2. cbn [bind]. rewrite Hb in *.
      replace (capa l' =? capa l) with false by (rewrite CE', E; lia).
      exists (capa l :: c), l2. do 2 eexists. split; [reflexivity|]. split; [reflexivity|]. split; [econstructor; eauto|]. split; [exact I2|]. split.
      { cbn [length seq map]. rewrite Z.add_0_r, E. f_equal. rewrite C2 at 1. rewrite <- seq_shift, map_map. apply map_ext. intros i. f_equal. lia. }
      split; [rewrite K2, zlen_cons; f_equal; lia|]. intros _. rewrite zlen_cons. destruct c as [|x c].
      * change (zlen (@nil Z)) with 0. match goal with |- ?x * _ < _ => replace x with k by lia end. rewrite <- E, <- CN, (i_cnt _ _ _ I). assert (sadd1 o = 1) by (unfold sadd1; destruct o; tauto || reflexivity). lia.
      * specialize (B2 ltac:(congruence)). match goal with |- ?y * _ < _ => replace y with (k + 1 + zlen (x :: c) - 1) by lia end. lia.
Qed.
Lemma total_lin b n : 2 * total (map (fun i => Z.of_nat i * b) (seq 0 n)) = b * (Z.of_nat n * (Z.of_nat n - 1)).
Proof.
  assert (TA : forall a b, total (a ++ b) = total a + total b) by (clear; unfold total; induction a as [|x a IH]; intros b; cbn [fold_right app]; [reflexivity|rewrite IH; lia]).
  induction n as [|n IH]; [cbn; lia|]. rewrite seq_S, map_app, TA. cbn [map total fold_right]. change (0 + n)%nat with n. nia.
Qed.
Lemma sgrown_thm itemsize blockitems l0 h : sblist_init itemsize blockitems = Ret l0 -> 1 <= itemsize -> (1 <= blockitems \/ blockitems = 0 /\ itemsize <= 4096) ->
  (zlen h + 1 + bits l0) * itemsize < 2 ^ 64 -> caller_ok l0 h ->
  exists c l rs xs, sgrown l0 h = Ret (c, l) /\ run l0 h = Ret (rs, l) /\ spec_run [] rs xs /\ reads_as l xs /\
    c = map (fun i => Z.of_nat i * bits l0) (seq 0 (length c)) /\ capa l = zlen c * bits l0 /\
    2 * total c = bits l0 * (zlen c * (zlen c - 1)) /\ zlen xs <= zlen c * bits l0 /\ (c <> [] -> (zlen c - 1) * bits l0 < sadds h).
Proof.
  intros E Hi Hb HL C.
  assert (isz l0 = itemsize /\ 1 <= bits l0 /\ capa l0 = 0 /\ forall lim, 0 <= lim -> Inv lim l0 []) as (E1 & E2 & E0 & I).
  { unfold sblist_init in E. destruct (blockitems =? 0) eqn:B.
    - destruct (itemsize =? 0) eqn:Z0; [discriminate|]. injection E as <-. cbn [isz bits capa]. assert (1 <= 4096 / itemsize) by (apply Z.div_le_lower_bound; lia). repeat split; auto; cbn [isz bits cnt capa mem]; try (cbn; lia); [exists []; split; [reflexivity|cbn; lia]|constructor].
    - injection E as <-. cbn [isz bits capa]. repeat split; auto; cbn [isz bits cnt capa mem]; try (cbn; lia); [exists []; split; [reflexivity|cbn; lia]|constructor]. }
  pose proof (zlen_nonneg h).
  destruct (sgrown_ok h (zlen h + 1 + bits l0) l0 [] 0 0 (I (zlen h + 1 + bits l0) ltac:(lia)) ltac:(change (zlen (@nil item)) with 0; lia) ltac:(rewrite E1; exact HL) C ltac:(lia) ltac:(rewrite E0; lia) ltac:(cbn; lia)) as (c & l & rs & xs & G & R & S & I2 & C2 & K & B).
  exists c, l, rs, xs. split; [exact G|]. split; [exact R|]. split; [exact S|]. destruct (run_ok h (zlen h + 1 + bits l0) l0 [] (I (zlen h + 1 + bits l0) ltac:(lia)) ltac:(change (zlen (@nil item)) with 0; lia) ltac:(rewrite E1; exact HL) C) as (rs' & l' & xs' & R' & _ & _ & Hi' & _ & _). rewrite R in R'. injection R' as <- <-.
  split; [eapply inv_reads; [exact I2|rewrite Hi', E1; exact HL]|]. rewrite Z.add_0_l in K. split; [exact C2|]. split; [exact K|]. split; [rewrite C2 at 1; cbn [Z.add]; apply total_lin|]. split.
  - rewrite <- K. rewrite <- (i_cnt _ _ _ I2). apply (i_capa _ _ _ I2).
  - rewrite Z.add_0_l in B. exact B.
Qed.
Definition sure_add (x : alloc * op) : Prop := mem_ok (fst x) = true /\ exists y, snd x = Add y.
Lemma adds_len h : Forall sure_add h -> forall rs, map fst rs = map (fun p => (mem_ok (fst p), snd p)) h -> forall xs xs', spec_run xs rs xs' -> zlen xs' = zlen xs + zlen h.
Proof.
  induction 1 as [|[al o] h [M [y Y]] F IH]; intros rs E xs xs' S.
  - destruct rs; [|discriminate]. inversion S; subst. change (zlen (@nil (alloc * op))) with 0. lia.
  - destruct rs as [|[[b o'] r] rs]; [discriminate|]. cbn [map fst snd] in *. injection E as -> -> E. inversion S as [|? ? ? ? l1 ? ? SP SR]; subst. rewrite M in SP. inversion SP; subst; [|discriminate]. rewrite (IH _ E _ _ SR). zl. lia.
Qed.
Lemma adds_thm itemsize blockitems l0 h : sblist_init itemsize blockitems = Ret l0 -> 1 <= itemsize -> (1 <= blockitems \/ blockitems = 0 /\ itemsize <= 4096) ->
  (zlen h + 1 + bits l0) * itemsize < 2 ^ 64 -> caller_ok l0 h -> Forall sure_add h ->
  exists c l, sgrown l0 h = Ret (c, l) /\ cnt l = zlen h /\ (zlen c - 1) * bits l0 < zlen h <= zlen c * bits l0 /\
    2 * total c = bits l0 * (zlen c * (zlen c - 1)).
Proof.
  intros E Hi Hb HL C F. destruct (sgrown_thm _ _ _ _ E Hi Hb HL C) as (c & l & rs & xs & G & R & S & [RA _] & C2 & K & T & U & B). exists c, l. split; [exact G|].
  assert (map fst rs = map (fun p => (mem_ok (fst p), snd p)) h) as M.
  { clear - R. revert l0 rs R. induction h as [|[al o] h IH]; intros l0 rs R; cbn [run] in R; [injection R as <- <-; reflexivity|]. destruct (exec al l0 o) as [[r l1]| |]; cbn [bind] in R; try discriminate. destruct (run l1 h) as [[rs1 l2]| |] eqn:E; cbn [bind] in R; try discriminate. injection R as <- <-. cbn [map fst snd]. now rewrite (IH _ _ E). }
  pose proof (adds_len h F rs M _ _ S) as L. change (zlen (@nil item)) with 0 in L. rewrite RA. split; [lia|]. split; [|exact T]. split; [|lia]. pose proof (sadds_nn h). destruct c as [|x c]; [|specialize (B ltac:(congruence)); lia].
  assert (1 <= bits l0) by (unfold sblist_init in E; destruct (blockitems =? 0) eqn:B0; [destruct (itemsize =? 0) eqn:Z0; [discriminate|]; injection E as <-; cbn [bits]; apply Z.div_le_lower_bound; lia|injection E as <-; cbn [bits]; lia]).
  change (zlen (@nil Z)) with 0. lia.
Qed.
