(** The byte level tglist and the slot level one (M_tglist with items = byte strings). *)
From Verif Require Import Base M_tglist S_tglist D_tglist D_tgsort P_tglist P_sort M_tgbytes D_tgbytes.

Definition sized (n : Z) (xs : list (list Z)) : Prop := Forall (fun x => zlen x = n) xs.
Lemma concat_len n xs : sized n xs -> zlen (concat xs) = zlen xs * n.
Proof. induction 1 as [|x xs Hx F IH]; [reflexivity|]. cbn [concat]. zl. rewrite IH. lia. Qed.
Lemma sized_take n k xs : sized n xs -> sized n (ztake k xs).
Proof. unfold sized, ztake. rewrite !Forall_forall. intros H x I. apply H. rewrite <- (firstn_skipn (Z.to_nat k) xs). apply in_or_app. now left. Qed.
Lemma sized_drop n k xs : sized n xs -> sized n (zdrop k xs).
Proof. unfold sized, zdrop. rewrite !Forall_forall. intros H x I. apply H. rewrite <- (firstn_skipn (Z.to_nat k) xs). apply in_or_app. now right. Qed.
Lemma concat_split n k xs : sized n xs -> 0 <= n -> 0 <= k <= zlen xs -> ztake (k * n) (concat xs) = concat (ztake k xs) /\ zdrop (k * n) (concat xs) = concat (zdrop k xs).
Proof.
  intros S Hn Hk. destruct (zsplit k xs) as (p & q & -> & Hp); [lia|]. assert (S' := S). apply Forall_app in S' as [S1 S2]. rewrite concat_app. subst k.
  rewrite ztake_app_exact, zdrop_app_exact by reflexivity. pose proof (concat_len n p S1) as L. rewrite <- L, ztake_app_exact, zdrop_app_exact by reflexivity. auto.
Qed.

Lemma seq_from n m : seq m n = map (fun a => (m + a)%nat) (seq 0 n).
Proof. revert m. induction n as [|n IH]; intros m; [reflexivity|]. cbn [seq map]. f_equal; [lia|]. rewrite IH, (IH 1%nat), map_map. apply map_ext. intros. lia. Qed.

Section S.
Variable isz : Z.
Hypothesis Hisz : 1 <= isz.
Notation sized := (sized isz).
Lemma sim_reads xs i k ys : sized xs -> zreads xs i k = Ret ys -> zreads (concat xs) (i * isz) (k * isz) = Ret (concat ys) /\ sized ys /\ zlen ys = k.
Proof using Hisz.
  intros S. unfold zreads. destruct (_ && _) eqn:B; [|discriminate]. intros E. injection E as <-. rewrite (concat_len isz xs S).
  replace (_ && _) with true by nia. assert (S2 : sized (zdrop i xs)) by (now apply sized_drop). assert (L2 : zlen (zdrop i xs) = zlen xs - i) by (apply zlen_zdrop; lia).
  rewrite (proj2 (concat_split isz i xs S ltac:(lia) ltac:(lia))), (proj1 (concat_split isz k _ S2 ltac:(lia) ltac:(lia))). split; [reflexivity|]. split; [now apply sized_take|]. apply zlen_ztake. lia.
Qed.
Lemma sim_writes xs i l ys : sized xs -> sized l -> zwrites xs i l = Ret ys -> zwrites (concat xs) (i * isz) (concat l) = Ret (concat ys) /\ sized ys.
Proof using Hisz.
  intros S Sl. unfold zwrites. destruct (_ && _) eqn:B; [|discriminate]. intros E. injection E as <-. rewrite (concat_len isz xs S), (concat_len isz l Sl). pose proof (zlen_nonneg l).
  replace (_ && _) with true by nia. replace (i * isz + zlen l * isz) with ((i + zlen l) * isz) by lia.
  rewrite (proj1 (concat_split isz i xs S ltac:(lia) ltac:(lia))), (proj2 (concat_split isz (i + zlen l) xs S ltac:(lia) ltac:(lia))). rewrite !concat_app. split; [reflexivity|]. apply Forall_app. split; [now apply sized_take|]. apply Forall_app. split; [assumption|now apply sized_drop].
Qed.
Lemma sim_read xs i x : sized xs -> zread xs i = Ret x -> zreads (concat xs) (i * isz) isz = Ret x /\ zlen x = isz.
Proof using Hisz.
  intros S E. assert (zreads xs i 1 = Ret [x]) as R.
  { unfold zread in E. destruct (0 <=? i) eqn:B; [|discriminate]. destruct (nth_error xs (Z.to_nat i)) as [y|] eqn:N; [|discriminate]. injection E as ->. assert (Z.to_nat i < length xs)%nat by (apply nth_error_Some; congruence).
    unfold zreads. replace (_ && _) with true by (unfold zlen; lia). f_equal. apply nth_error_split in N as (l1 & l2 & -> & L). unfold zdrop. rewrite <- L, skipn_app, skipn_all, Nat.sub_diag. reflexivity. }
  destruct (sim_reads _ _ _ _ S R) as (A & B & _). cbn [concat] in A. rewrite app_nil_r, Z.mul_1_l in A. split; [exact A|]. inversion B; assumption.
Qed.
Lemma sim_write xs i x ys : sized xs -> zlen x = isz -> zwrite xs i x = Ret ys -> zwrites (concat xs) (i * isz) x = Ret (concat ys) /\ sized ys.
Proof using Hisz.
  intros S Hx E. assert (zwrites xs i [x] = Ret ys) as W.
  { unfold zwrite in E. unfold zwrites. destruct (_ && _) eqn:B; [|discriminate]. change (zlen [x]) with 1. replace (_ && _) with true by lia. exact E. }
  destruct (sim_writes _ _ [x] _ S ltac:(now repeat constructor) W) as (A & B). cbn [concat] in A. rewrite app_nil_r in A. auto.
Qed.

Definition sim (l : tgl (list Z)) (b : btg) : Prop := bcnt b = tcnt l /\ bcapa b = tcapa l /\ bmem b = concat (tmem l) /\ sized (tmem l).
Notation slots := (slots isz).

Lemma sim_move l b p d r l' : sim l b -> tglist_memmove_impl l p d isz = Ret (r, l') -> exists b', b_memmove isz b p d = Ret (r, b') /\ sim l' b'.
Proof using Hisz.
  intros (C & K & M & S). unfold tglist_memmove_impl, b_memmove. rewrite C, M. cbv zeta.
  set (dst := u64 (p * isz)). set (src := dst + isz * d). set (n := u64 (u64 (tcnt l - u64 (p + d)) * isz)).
  destruct (_ && _) eqn:B; [|discriminate]. unfold zmove. intros E. destruct (zreads (tmem l) (src / isz) (n / isz)) as [ys| |] eqn:R; cbn [bind] in E; try discriminate.
  destruct (zwrites (tmem l) (dst / isz) ys) as [zs| |] eqn:W; cbn [bind] in E; try discriminate. injection E as <- <-.
  assert (forall a, a mod isz = 0 -> a / isz * isz = a) as D by (intros a H; pose proof (Z.div_mod a isz ltac:(lia)); lia).
  destruct (sim_reads _ _ _ _ S R) as (R1 & R2 & _). rewrite !D in R1 by lia. rewrite R1. cbn [bind]. destruct (sim_writes _ _ _ _ S R2 W) as (W1 & W2). rewrite D in W1 by lia. rewrite W1. cbn [bind].
  eexists. split; [reflexivity|]. repeat split; cbn; auto.
Qed.
Lemma concat_fresh junk i k : 0 <= k -> concat (tfresh (fun j => tfresh junk (j * isz) isz) i k) = tfresh junk (i * isz) (k * isz) /\ sized (tfresh (fun j => tfresh junk (j * isz) isz) i k).
Proof using Hisz.
  intros Hk. assert (forall n i, concat (map (fun k => tfresh junk ((i + Z.of_nat k) * isz) isz) (seq 0 n)) = tfresh junk (i * isz) (Z.of_nat n * isz)) as A.
  { clear Hk. induction n as [|n IH]; intros j; [reflexivity|]. rewrite seq_S, map_app, concat_app, IH. cbn [map concat]. rewrite app_nil_r. change (0 + n)%nat with n. unfold tfresh.
    replace (Z.to_nat (Z.of_nat (S n) * isz)) with (Z.to_nat (Z.of_nat n * isz) + Z.to_nat isz)%nat by nia. rewrite seq_app, map_app. f_equal.
    rewrite (seq_from (Z.to_nat isz) (0 + Z.to_nat (Z.of_nat n * isz))), map_map. apply map_ext. intros a. f_equal. nia. }
  split.
  - unfold tfresh at 1. rewrite A. f_equal. lia.
  - unfold tfresh at 1. apply Forall_forall. intros x I. apply in_map_iff in I as (a & <- & _). apply zlen_tfresh. lia.
Qed.
Lemma sim_grow al l b xs r l' : sim l b -> trep isz l xs -> (2 * zlen xs + 4) * isz < 2 ^ 64 ->
  tglist_grow_if_needed isz (slots al) l = (r, l') -> exists b', b_grow isz al b = (r, b') /\ sim l' b'.
Proof using Hisz.
  intros (C & K & M & S) T L. unfold tglist_grow_if_needed, b_grow. rewrite C, K. pose proof (trep_le _ _ _ T) as Le. pose proof (r_cnt _ _ _ T) as Cn. pose proof (r_capa _ _ _ T) as Ca. pose proof (zlen_nonneg xs).
  destruct (tcnt l =? tcapa l) eqn:Q; [|intros E; injection E as <- <-; eexists; split; [reflexivity|]; repeat split; auto].
  destruct al as [junk|]; cbn [slots option_map]; intros E; injection E as <- <-; [|eexists; split; [reflexivity|]; repeat split; auto].
  assert (exists nw, (if tcapa l =? 0 then 4 else u64 (tcapa l * 2)) = nw /\ tcapa l < nw /\ nw * isz < 2 ^ 64) as (nw & -> & N1 & N2).
  { destruct (tcapa l =? 0) eqn:Z0; [eexists; split; [reflexivity|]; nia|]. rewrite u64_id by nia. eexists; split; [reflexivity|]. nia. }
  rewrite (u64_id (nw * isz)) by nia. rewrite Z.div_mul by lia. rewrite M, (concat_len isz _ S), Ca.
  eexists. split; [reflexivity|]. assert (0 <= tcapa l) by lia.
  rewrite (ztake_all nw (tmem l)) by lia. rewrite (ztake_all (nw * isz) (concat (tmem l))) by (rewrite (concat_len isz _ S); nia).
  destruct (concat_fresh junk (tcapa l) (nw - tcapa l) ltac:(lia)) as [F1 F2]. split; [reflexivity|]. split; [reflexivity|]. cbn [bmem tmem]. split.
  - rewrite concat_app, F1. do 2 f_equal. lia.
  - apply Forall_app. split; assumption.
Qed.
Lemma sim_set l b x pos r l' : sim l b -> zlen x = isz -> tglist_set l x pos = Ret (r, l') -> exists b', b_set isz b x pos = Ret (r, b') /\ sim l' b'.
Proof using Hisz.
  intros (C & K & M & S) Hx. unfold tglist_set, b_set. destruct (zwrite (tmem l) pos x) as [ys| |] eqn:W; cbn [bind]; try discriminate. intros E. injection E as <- <-. destruct (sim_write _ _ _ _ S Hx W) as [W1 W2]. rewrite M, W1. cbn [bind]. eexists. split; [reflexivity|]. repeat split; auto.
Qed.
Lemma sim_cnt l b c : sim l b -> sim (mkTg c (tcapa l) (tmem l)) (mkB c (bcapa b) (bmem b)).
Proof using. intros (C & K & M & S). repeat split; auto. Qed.
Lemma sim_exec al l b xs o r l' : sim l b -> trep isz l xs -> (2 * zlen xs + 4) * isz < 2 ^ 64 -> item_ok isz o ->
  texec isz (slots al) l o = Ret (r, l') -> exists b', bexec isz al b o = Ret (r, b') /\ sim l' b'.
Proof using Hisz.
  intros SM T L IO E. destruct o as [x|x pos|x pos|pos|pos]; cbn [texec bexec item_ok] in *.
  - unfold tglist_add, tglist_prepare_addition in E. unfold b_add. destruct (tglist_grow_if_needed isz (slots al) l) as [g l1] eqn:G. destruct (sim_grow _ _ _ _ _ _ SM T L G) as (b1 & -> & S1). destruct (negb (g =? 0)).
    + rewrite (proj1 S1). destruct (u64 (tcnt l1 + 1) =? 0) eqn:Z0; cbn [Z.eqb negb] in E |- *.
      * cbn [bind] in *. injection E as <- <-. eexists. split; [reflexivity|]. now apply sim_cnt.
      * destruct (tglist_set _ _ _) as [[r1 l2]| |] eqn:W; cbn [bind] in E; try discriminate. injection E as <- <-.
        destruct (sim_set _ _ _ _ _ _ (sim_cnt _ _ (u64 (tcnt l1 + 1)) S1) IO W) as (b2 & W2 & S2). cbn [tcnt] in W2. rewrite W2. cbn [bind]. eexists. split; [reflexivity|exact S2].
    + cbn [Z.eqb negb bind] in *. injection E as <- <-. eexists. split; [reflexivity|exact S1].
  - unfold tglist_insert in E. unfold b_insert. destruct (tglist_grow_if_needed isz (slots al) l) as [g l1] eqn:G. destruct (sim_grow _ _ _ _ _ _ SM T L G) as (b1 & -> & S1). destruct (negb (g =? 0)).
    + destruct (tglist_memmove_impl _ _ _ _) as [[r1 l2]| |] eqn:M; cbn [bind] in E; try discriminate. destruct (sim_move _ _ _ _ _ _ S1 M) as (b2 & -> & S2). cbn [bind bcnt tcnt] in *. rewrite (proj1 S2). pose proof (sim_cnt _ _ (u64 (tcnt l2 + 1)) S2) as S3. destruct ((r1 =? 0) || (u64 (tcnt l2 + 1) =? 0)).
      * cbn [bind] in *. injection E as <- <-. eexists. split; [reflexivity|exact S3].
      * destruct (tglist_set _ _ _) as [[r4 l4]| |] eqn:W; cbn [bind] in E; try discriminate. injection E as <- <-. destruct (sim_set _ _ _ _ _ _ S3 IO W) as (b4 & -> & S4). cbn [bind]. eexists. split; [reflexivity|exact S4].
    + cbn [bind] in *. injection E as <- <-. eexists. split; [reflexivity|exact S1].
  - destruct (tglist_set _ _ _) as [[r4 l4]| |] eqn:W; cbn [bind] in E; try discriminate. injection E as <- <-. destruct (sim_set _ _ _ _ _ _ SM IO W) as (b4 & -> & S4). cbn [bind]. eexists. split; [reflexivity|exact S4].
  - unfold tglist_delete in E. unfold b_delete. destruct (tglist_memmove_impl _ _ _ _) as [[r1 l2]| |] eqn:M; cbn [bind] in E; try discriminate. destruct (sim_move _ _ _ _ _ _ SM M) as (b2 & -> & S2). cbn [bind]. rewrite (proj1 S2). destruct (negb (r1 =? 0)); cbn [bind] in *; injection E as <- <-; eexists; (split; [reflexivity|]); [now apply sim_cnt|exact S2].
  - unfold tglist_get in E. unfold b_get. destruct (zread _ _) as [x| |] eqn:R; cbn [bind] in E; try discriminate. injection E as <- <-. pose proof SM as (C & K & M & S). destruct (sim_read _ _ _ S R) as [R1 _]. rewrite M, R1. cbn [bind]. eexists. split; [reflexivity|exact SM].
Qed.
Lemma has_slots al : has_mem (slots al) = bhas_mem al.
Proof using. now destruct al. Qed.
Lemma brun_ok h : forall l b xs, sim l b -> trep isz l xs -> (2 * (zlen xs + zlen h) + 4) * isz < 2 ^ 64 -> bcaller_ok isz b h ->
  exists rs b' l' xs', brun isz b h = Ret (rs, b') /\ lspec_run xs rs xs' /\ sim l' b' /\ trep isz l' xs' /\ zlen xs' <= zlen xs + zlen h /\ trun isz l (map (fun x => (slots (fst x), snd x)) h) = Ret (rs, l').
Proof using Hisz.
  induction h as [|[al o] h IH]; intros l b xs SM T L C; cbn [brun].
  - exists [], b, l, xs. split; [reflexivity|]. split; [constructor|]. split; [exact SM|]. split; [exact T|]. split; [zl; lia|reflexivity].
  - cbn [bcaller_ok] in C. destruct C as (IO & V & C). rewrite (proj1 SM) in V. rewrite zlen_cons in *. pose proof (zlen_nonneg h). pose proof (zlen_nonneg xs).
    destruct (texec_ok isz Hisz (slots al) l xs o T ltac:(nia) V) as (r & l' & xs' & EX & T' & SP & _). destruct (sim_exec al l b xs o r l' SM T ltac:(nia) IO EX) as (b' & EB & SM'). rewrite EB in *. cbn [bind]. pose proof (lspec_len _ _ _ _ _ SP).
    destruct (IH l' b' xs' SM' T' ltac:(nia) C) as (rs & b2 & l2 & xs2 & -> & S2 & SM2 & T2 & L2 & R2). cbn [map fst snd trun]. rewrite EX. cbn [bind]. rewrite R2. cbn [bind]. rewrite has_slots. do 4 eexists. split; [reflexivity|]. split; [econstructor; [rewrite <- has_slots; exact SP|exact S2]|]. split; [exact SM2|]. split; [exact T2|]. split; [lia|reflexivity].
Qed.
Lemma sim_breads l b xs : sim l b -> trep isz l xs -> breads isz b xs.
Proof using Hisz.
  intros SM T. pose proof SM as (C & K & M & S). split; [rewrite C; apply T|]. split.
  - intros i Hi. unfold b_get. rewrite M. apply (sim_read _ _ _ S). pose proof (proj2 (trep_reads isz _ _ T) i [] Hi) as G. exact G.
  - rewrite M, (concat_len isz _ S), K, (r_capa _ _ _ T). split; [reflexivity|]. rewrite C, (r_cnt _ _ _ T). apply (trep_le _ _ _ T).
Qed.
Lemma sim_init : sim tglist_init b_init.
Proof using. repeat split; auto. constructor. Qed.
Lemma sim_pos cmp l b o xs fuel : forall hi lo r, sim l b -> trep isz l xs -> tg_pos_loop fuel cmp l o hi lo = Ret r -> b_pos_loop isz fuel cmp b o hi lo = Ret r.
Proof using Hisz.
  induction fuel as [|fuel IH]; intros hi lo r SM T E; [discriminate|]. cbn [tg_pos_loop b_pos_loop] in *. unfold tglist_get in E. set (c := u64 (hi + u64 (lo - hi) / 2)) in *. destruct (zread (tmem l) c) as [x| |] eqn:R; cbn [bind] in E; try discriminate.
  pose proof SM as (C & K & M & S). destruct (sim_read _ _ _ S R) as [R1 _]. assert (0 <= c < tcapa l) as B. { unfold zread in R. destruct (0 <=? c) eqn:Z0; [|discriminate]. destruct (nth_error _ _) eqn:N; [|discriminate]. assert (Z.to_nat c < length (tmem l))%nat by (apply nth_error_Some; congruence). rewrite <- (r_capa _ _ _ T). unfold zlen. lia. }
  pose proof (r_size _ _ _ T). rewrite (u64_id (c * isz)) by nia. rewrite M, R1. cbn [bind]. destruct (hi =? lo); [exact E|]. destruct (if _ <? 0 then _ else _) as [h w]. now apply IH.
Qed.
Lemma sim_insert_memcpy al l b xs x pos r l' : sim l b -> trep isz l xs -> (2 * zlen xs + 4) * isz < 2 ^ 64 -> zlen x = isz -> 0 <= pos <= zlen xs ->
  tglist_insert isz (slots al) l x pos = Ret (r, l') -> exists b', b_insert_memcpy isz al b x pos = Ret (r, b') /\ sim l' b'.
Proof using Hisz.
  intros SM T L IO HP E. assert (EX : texec isz (slots al) l (LIns x pos) = Ret (LInt r, l')) by (cbn [texec]; now rewrite E). destruct (sim_exec al l b xs (LIns x pos) _ _ SM T L IO EX) as (b' & EB & S'). cbn [bexec] in EB.
  assert (b_insert_memcpy isz al b x pos = b_insert isz al b x pos) as ->. { unfold b_insert_memcpy, b_insert, b_set. rewrite (u64_id (pos * isz)) by (pose proof (zlen_nonneg xs); nia). reflexivity. }
  destruct (b_insert isz al b x pos) as [[r2 b2]| |]; cbn [bind] in EB; try discriminate. injection EB as <- <-. eexists. split; [reflexivity|exact S'].
Qed.
Lemma breached_sim h b xs : breached isz h b xs -> exists l, sim l b /\ trep isz l xs /\ zlen xs <= zlen h.
Proof using Hisz.
  intros (_ & L & C & rs & R & SP & B1 & B2 & _). destruct (brun_ok h _ _ _ sim_init (init_trep isz) ltac:(cbn; exact L) C) as (rs' & b' & l & xs' & E & S' & SM & T & Ln & _). rewrite R in E. injection E as <- <-. exists l.
  assert (xs' = xs) as ->. { pose proof (sim_breads _ _ _ SM T) as (D1 & D2 & _). assert (zlen xs' = zlen xs) by lia. apply nth_ext with (d := []) (d' := []); [unfold zlen in *; lia|]. intros n Hn. specialize (B2 (Z.of_nat n) ltac:(unfold zlen in *; lia)). specialize (D2 (Z.of_nat n) ltac:(unfold zlen in *; lia)). rewrite B2 in D2. unfold znth in D2. rewrite Nat2Z.id in D2. congruence. }
  split; [exact SM|]. split; [exact T|]. change (zlen (@nil (list Z))) with 0 in Ln. lia.
Qed.
End S.
Lemma bytes_run isz h : 1 <= isz -> (2 * zlen h + 4) * isz < 2 ^ 64 -> bcaller_ok isz b_init h ->
  exists rs b xs, brun isz b_init h = Ret (rs, b) /\ lspec_run [] rs xs /\ breads isz b xs.
Proof.
  intros Hi L C. destruct (brun_ok isz Hi h _ _ _ (sim_init isz) (init_trep isz) ltac:(cbn; exact L) C) as (rs & b & l & xs & E & S & SM & T & _). exists rs, b, xs. split; [exact E|]. split; [exact S|]. eapply sim_breads; eauto.
Qed.
Lemma bytes_sorted isz h b xs al cmp o : breached isz h b xs -> zlen o = isz ->
  exists r b', b_insert_sorted isz al cmp b o = Ret (r, b') /\
    (r = SIZE_MAX /\ b' = b /\ al = None \/
     exists p q, xs = p ++ q /\ r = zlen p /\ breads isz b' (p ++ o :: q) /\ (total_order cmp -> tsorted cmp xs -> tsorted cmp (p ++ o :: q))).
Proof.
  intros R Ho. pose proof R as (Hi & L & _). destruct (breached_sim isz Hi _ _ _ R) as (l & SM & T & Ln). pose proof (zlen_nonneg xs).
  assert (L' : (2 * zlen xs + 4) * isz < 2 ^ 64) by nia.
  destruct (P_tgsort.insert_sorted_ok isz cmp Hi (slots isz al) l xs o T L') as (r & l' & E & H'). unfold tglist_insert_sorted, tglist_sorted_insert_pos_impl in E. unfold b_insert_sorted, b_sorted_pos. rewrite (proj1 SM).
  assert (exists pos, (if tcnt l =? 0 then Ret 0 else tg_pos_loop (S (Z.to_nat (tcnt l))) cmp l o 0 (u64 (tcnt l - 1))) = Ret pos /\ 0 <= pos <= zlen xs /\ (if tcnt l =? 0 then Ret 0 else b_pos_loop isz (S (Z.to_nat (tcnt l))) cmp b o 0 (u64 (tcnt l - 1))) = Ret pos) as (pos & P1 & P2 & P3).
  { destruct (tcnt l =? 0) eqn:Z0; [exists 0; repeat split; auto; lia|]. rewrite (r_cnt _ _ _ T) in *. rewrite u64_id by nia. destruct (P_tgsort.tg_pos_ok isz cmp Hi o l xs o (S (Z.to_nat (zlen xs))) 0 (zlen xs - 1) T ltac:(lia) ltac:(lia) ltac:(lia)) as (pos & EP & HP & _). exists pos. split; [exact EP|]. split; [exact HP|]. eapply sim_pos; eauto. }
  rewrite P1 in E. rewrite P3. cbn [bind] in *. assert (pos =? SIZE_MAX = false) as NM by (unfold SIZE_MAX; nia). rewrite NM in *.
  destruct (tglist_insert isz (slots isz al) l o pos) as [[ok l2]| |] eqn:I; cbn [bind] in E; try discriminate. destruct (sim_insert_memcpy isz Hi al l b xs o pos ok l2 SM T L' Ho P2 I) as (b2 & -> & S2). cbn [bind].
  destruct H' as [(-> & -> & HM)|(p & q & -> & -> & T' & HS)].
  - destruct (negb (ok =? 0)) eqn:OK; [injection E as E1 E2; subst pos; unfold SIZE_MAX in NM; lia|]. injection E as <-. do 2 eexists. split; [reflexivity|]. left. split; [reflexivity|]. split; [|destruct al; [discriminate|reflexivity]].
    destruct al; [discriminate|]. clear - SM S2. destruct SM as (A1 & A2 & A3 & _), S2 as (B1 & B2 & B3 & _). destruct b, b2; cbn in *; congruence.
  - destruct (negb (ok =? 0)) eqn:OK; [|injection E as E1 _; pose proof (zlen_app p q); pose proof (zlen_nonneg q); unfold SIZE_MAX in *; nia]. injection E as E1 E2. subst l2. do 2 eexists. split; [reflexivity|]. right. exists p, q. split; [reflexivity|]. split; [exact E1|]. split; [eapply sim_breads; eauto|exact HS].
Qed.
Lemma bytes_refine isz h : 1 <= isz -> (2 * zlen h + 4) * isz < 2 ^ 64 -> bcaller_ok isz b_init h ->
  exists rs b l, brun isz b_init h = Ret (rs, b) /\ trun isz tglist_init (map (fun x => (slots isz (fst x), snd x)) h) = Ret (rs, l) /\
    bcnt b = tcnt l /\ bcapa b = tcapa l /\ bmem b = concat (tmem l).
Proof.
  intros Hi L C. destruct (brun_ok isz Hi h _ _ _ (sim_init isz) (init_trep isz) ltac:(cbn; exact L) C) as (rs & b & l & xs & E & S & (S1 & S2 & S3 & _) & T & _ & R). exists rs, b, l. auto.
Qed.
