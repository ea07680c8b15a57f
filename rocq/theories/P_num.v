(** Proofs about number printing and parsing. *)
From Verif Require Import Base Bits Cstr S_num L_num M_num.
Ltac Zify.zify_post_hook ::= Z.div_mod_to_equations.


Lemma cypher_ok (base flags i : Z) : 0 <= i < base -> base <= 62 ->
  (if negb (negb (Z.land flags 4 =? 0) && (base <=? 36) && (10 <=? i) && (i <? 36))
   then zread conv_cypher i else zread conv_cypher (i + 26)) = Ret (digit_char (lower_of base flags) i).
Proof.
  intros Hi Hb. unfold lower_of. set (f := negb (Z.land flags 4 =? 0)). clearbody f.
  assert (H : forall g : bool, (i <? base) && (negb g || (base <=? 36)) = true ->
     match (if negb (g && (10 <=? i) && (i <? 36)) then zread conv_cypher i else zread conv_cypher (i + 26)) with
     | Ret x => x =? digit_char g i | _ => false end = true).
  { intros g Hg.
    pose proof (sweep_ok 62 (fun i => (g && (36 <=? i)) ||
      match (if negb (g && (10 <=? i) && (i <? 36)) then zread conv_cypher i else zread conv_cypher (i + 26)) with
      | Ret x => x =? digit_char g i | _ => false end)) as S.
    specialize (S ltac:(destruct g; vm_compute; reflexivity) i ltac:(lia)). cbv beta in S.
    apply orb_true_iff in S as [S|S]; [|exact S]. destruct g; cbn in *; lia. }
  specialize (H (f && (base <=? 36))). 
  assert (Hg : (i <? base) && (negb (f && (base <=? 36)) || (base <=? 36)) = true) by (destruct f; lia).
  specialize (H Hg).
  destruct (if negb (f && (base <=? 36) && (10 <=? i) && (i <? 36)) then _ else _); try discriminate. f_equal. lia.
Qed.

Lemma pow_half b n (k : nat) : 2 <= b -> 0 <= n < 2 ^ Z.of_nat (S k) -> 0 <= n / b < 2 ^ Z.of_nat k.
Proof.
  intros Hb Hn. rewrite Nat2Z.inj_succ, Z.pow_succ_r in Hn by lia. split; [apply Z.div_pos; lia|].
  apply Z.div_lt_upper_bound; nia.
Qed.

(** digit counting *)
Lemma lentest_ok b : 2 <= b -> forall (k : nat) n l, 0 <= n < 2 ^ Z.of_nat k ->
  exists m : nat, nts_lentest (S k) n b l = Ret (l + Z.of_nat m) /\ n < b ^ Z.of_nat m /\
    (n = 0 /\ m = O \/ (0 < m)%nat /\ b ^ (Z.of_nat m - 1) <= n).
Proof.
  intros Hb. induction k as [|k IH]; intros n l Hn.
  - exists O. cbn in Hn. assert (n = 0) by lia. subst n. cbn. split; [f_equal; lia|]. lia.
  - remember (S k) as k1 eqn:Ek. cbn [nts_lentest]. destruct (n =? 0) eqn:E.
    + exists O. split; [f_equal; lia|]. cbn. lia.
    + replace (b =? 0) with false by lia.
      destruct (IH (n / b) (l + 1)) as [m [H1 [H2 H3]]]; [subst k1; now apply pow_half|].
      exists (S m). rewrite H1. split; [f_equal; lia|]. rewrite Nat2Z.inj_succ, Z.pow_succ_r by lia.
      split; [pose proof (Z.mod_pos_bound n b); pose proof (Z.div_mod n b); nia|].
      right. split; [lia|]. destruct H3 as [[H3 ->]|[H3 H4]].
      * cbn. lia.
      * replace (Z.succ (Z.of_nat m) - 1) with (Z.succ (Z.of_nat m - 1)) by lia. rewrite Z.pow_succ_r by lia.
        pose proof (Z.mod_pos_bound n b). pose proof (Z.div_mod n b). nia.
Qed.

Lemma fill_ok n : forall pre i f suf, zlen f = Z.of_nat n -> forall z, zlen z = i -> forall r, r = zlen pre ->
  nts_fill n (pre ++ z ++ f ++ suf) r i = Ret (pre ++ z ++ zrepeat 48 (Z.of_nat n) ++ suf).
Proof.
  induction n as [|n IH]; intros pre i f suf Hf z Hz r Hr; cbn [nts_fill].
  - apply zlen_0 in Hf. subst f. reflexivity.
  - destruct f as [|c f]; [zl; lia|]. cbn [app]. rewrite app_assoc. rewrite zwrite_at by (zl; lia). cbn [bind].
    specialize (IH pre (i + 1) f suf ltac:(zl; lia) (z ++ [48]) ltac:(zl; lia) r Hr).
    rewrite <- !app_assoc in *. cbn [app] in *. rewrite IH. do 3 f_equal.
    rewrite Nat2Z.inj_succ. unfold zrepeat. rewrite Z2Nat.inj_succ by lia. reflexivity.
Qed.

Lemma zrepeat_split (v n : Z) : 0 < n -> zrepeat v n = zrepeat v (n - 1) ++ [v].
Proof.
  intros. unfold zrepeat. replace (Z.to_nat n) with (Z.to_nat (n - 1) + 1)%nat by lia. now rewrite repeat_app.
Qed.

Lemma digits_loop_ok b flags : 2 <= b <= 62 -> forall (k : nat) n (len : nat) pre suf r,
  0 <= n < 2 ^ Z.of_nat k -> r = zlen pre ->
  nts_digits (S k) (pre ++ zrepeat 48 (Z.of_nat len) ++ suf) n b r (Z.of_nat len) flags =
  Ret (pre ++ map (digit_char (lower_of b flags)) (low_digits len b n) ++ suf).
Proof.
  intros Hb.
  assert (Hz : forall k len pre suf r, nts_digits (S k) (pre ++ zrepeat 48 (Z.of_nat len) ++ suf) 0 b r (Z.of_nat len) flags =
     Ret (pre ++ map (digit_char (lower_of b flags)) (low_digits len b 0) ++ suf)).
  { intros. cbn [nts_digits]. change (0 =? 0) with true. cbn [negb andb]. rewrite low_digits_0.
    do 3 f_equal. unfold zrepeat. rewrite Nat2Z.id. induction len; cbn; congruence. }
  induction k as [|k IH]; intros n len pre suf r Hn Hr.
  - assert (n = 0) by (cbn in Hn; lia). subst n. apply Hz.
  - destruct (Z.eq_dec n 0) as [->|Hn0]; [apply Hz|]. remember (S k) as k1 eqn:Ek. cbn [nts_digits].
    replace (n =? 0) with false by lia. cbn [negb andb]. destruct len as [|len].
    + change (Z.of_nat 0 =? 0) with true. cbn [negb]. reflexivity.
    + replace (Z.of_nat (S len) =? 0) with false by lia. cbn [negb]. replace (b =? 0) with false by lia.
      rewrite cypher_ok by (try apply Z.mod_pos_bound; lia). cbn [bind].
      rewrite zrepeat_split by lia. replace (Z.of_nat (S len) - 1) with (Z.of_nat len) by lia.
      rewrite <- (app_assoc (zrepeat _ _)). rewrite app_assoc. cbn [app].
      rewrite zwrite_at by (zl; rewrite zlen_zrepeat; lia). cbn [bind]. rewrite <- app_assoc.
      replace ((n - n mod b) / b) with (n / b).
      2: { apply (Z.div_unique_exact); [lia|]. pose proof (Z.div_mod n b). lia. }
      rewrite IH by (subst k1; try apply pow_half; lia). cbn [low_digits]. rewrite map_app, <- !app_assoc. reflexivity.
Qed.

Lemma strip_ok lower n : forall ds pre r i shr suf z, digits_ok 62 ds -> zlen ds = Z.of_nat n -> r = zlen pre ->
  zlen z = i -> 0 <= shr -> shr + zlen ds <= 2147483647 ->
  exists k ds', ds = zrepeat 0 k ++ ds' /\ 0 <= k /\ (ds' = [] \/ exists d q, ds' = d :: q /\ d <> 0) /\
    nts_strip n (pre ++ z ++ map (digit_char lower) ds ++ suf) r i shr = Ret (shr + k).
Proof.
  induction n as [|n IH]; intros ds pre r i shr suf z HD HL Hr Hz Hs1 Hs2; cbn [nts_strip].
  - apply zlen_0 in HL. subst ds. exists 0, []. repeat split; auto; try lia. f_equal; lia.
  - destruct ds as [|d ds]; [zl; lia|]. apply Forall_cons_iff in HD as [Hd HD]. cbn [map app].
    rewrite app_assoc, zread_at by (zl; lia). cbn [bind]. zl. zpos.
    destruct (Z.eq_dec d 0) as [->|Hne].
    + change (digit_char lower 0 =? 48) with true. cbv iota.
      assert (int_r (shr + 1) = Ret (shr + 1)) as -> by (unfold int_r, int_ok; replace (_ && _) with true by lia; reflexivity).
      cbn [bind]. destruct (IH ds pre r (i + 1) (shr + 1) suf (z ++ [48])) as [k [ds' [H1 [H2 [H3 H4]]]]];
        try assumption; try (zl; lia).
      exists (k + 1), ds'. rewrite <- app_assoc. rewrite <- !app_assoc in H4. cbn [app] in H4.
      change (digit_char lower 0) with 48. rewrite H4. split.
      { subst ds. change (0 :: zrepeat 0 k ++ ds') with ((0 :: zrepeat 0 k) ++ ds'). f_equal. unfold zrepeat.
        replace (Z.to_nat (k + 1)) with (S (Z.to_nat k)) by lia. reflexivity. }
      split; [lia|]. split; [assumption|]. f_equal. lia.
    + assert ((digit_char lower d =? 48) = false) as ->.
      { unfold digit_char. destruct (d <? 10) eqn:?; [lia|]. destruct (d <? 36) eqn:?; destruct lower; lia. }
      exists 0, (d :: ds). split; [reflexivity|]. split; [lia|]. split; [right; eauto|]. f_equal; lia.
Qed.

(** magnitude and sign as the function sees them *)

Lemma sign_test number : 0 <= number < 2 ^ 64 -> (Z.shiftr number 63 =? 1) = (2 ^ 63 <=? number).
Proof. intros. rewrite Z.shiftr_div_pow2 by lia. lia. Qed.
Lemma negate number : 2 ^ 63 <= number < 2 ^ 64 -> u64 (u64 (Z.lnot number) + 1) = 2 ^ 64 - number.
Proof. intros. unfold Z.lnot, u64. lia. Qed.

(** the whole function for any length; len digits are produced *)
Lemma nts_core number base buffer maxlen flags (len : nat) :
  0 <= number < 2 ^ 64 -> 2 <= base <= 62 -> base mod 2 = 0 -> 0 <= maxlen -> 0 < Z.of_nat len <= 2147483647 ->
  (if maxlen =? 0 then let* l := nts_lentest 65 (mag_of number flags) base 0 in Ret (if l =? 0 then 1 else l) else Ret maxlen)
    = Ret (Z.of_nat len) ->
  let neg := neg_of number flags in
  let ds := low_digits len base (mag_of number flags) in
  let text := sign_str neg ++ map (digit_char (lower_of base flags)) ds ++ [0] in
  zlen text <= zlen buffer ->
  exists off, numberToString number base buffer maxlen flags = Ret (Some (off, text ++ zdrop (zlen text) buffer)) /\
    (flags <> 0 -> off = 0) /\
    (flags = 0 -> mag_of number flags = 0 -> off = Z.of_nat len - 1) /\
    (flags = 0 -> mag_of number flags <> 0 -> exists ds', ds = zrepeat 0 off ++ ds' /\ 0 <= off /\
       (ds' = [] \/ exists d q, ds' = d :: q /\ d <> 0)).
Proof.
  intros Hn Hb He Hm Hlen Elen neg ds text HL. unfold numberToString.
  replace (base mod 2 =? 0) with true by lia. change conv_cypher_len with 62. replace (62 <? base) with false by lia.
  cbn [negb orb]. rewrite sign_test by assumption. fold (neg_of number flags). fold neg.
  assert (Hmag : (if neg then u64 (u64 (Z.lnot number) + 1) else number) = mag_of number flags).
  { unfold mag_of. fold neg. destruct neg eqn:E; [|reflexivity]. apply negate. unfold neg, neg_of in E. lia. }
  rewrite Hmag. rewrite Elen. cbn [bind]. rewrite Nat2Z.id.
  assert (Hmr : 0 <= mag_of number flags < 2 ^ 64).
  { unfold mag_of. destruct (neg_of number flags) eqn:E; [|lia]. unfold neg_of in E. lia. }
  assert (Hmz : mag_of number flags = 0 -> neg = false).
  { unfold mag_of. fold neg. destruct neg eqn:E; [|auto]. unfold neg, neg_of in E. lia. }
  assert (Hnf : flags = 0 -> neg = false) by (intros ->; reflexivity).
  set (r := if neg then 1 else 0).
  assert (Hzds : zlen ds = Z.of_nat len) by apply low_digits_len.
  assert (Hzt : zlen text = r + Z.of_nat len + 1).
  { unfold text. zl. rewrite Hzds. unfold r, sign_str. destruct neg; zl; lia. }
  assert (Hr : 0 <= r <= 1) by (unfold r; destruct neg; lia).
  destruct (zsplit r buffer) as [pre [b1 [-> Hpre]]]; [lia|].
  destruct (zsplit (Z.of_nat len) b1) as [fld [b2 [-> Hfld]]]; [zl; lia|].
  destruct b2 as [|x suf]; [zl; lia|].
  pose proof (fill_ok len pre 0 fld (x :: suf) Hfld [] eq_refl r (eq_sym Hpre)) as EF. cbn [app] in EF.
  rewrite EF. clear EF. cbn [bind].
  rewrite app_assoc, zwrite_at by (zl; rewrite zlen_zrepeat; lia). cbn [bind]. rewrite <- app_assoc.
  assert (Hdrop : zdrop (zlen text) (pre ++ fld ++ x :: suf) = suf).
  { replace (pre ++ fld ++ x :: suf) with ((pre ++ fld ++ [x]) ++ suf) by (rewrite <- !app_assoc; reflexivity).
    replace (zlen text) with (zlen (pre ++ fld ++ [x])) by (zl; lia). apply zdrop_app_exact. }
  rewrite Hdrop.
  assert (Hnp : negb (Z.land (if flags =? 0 then 1 else 0) 1 =? 0) = (flags =? 0)) by (destruct (flags =? 0); reflexivity).
  rewrite Hnp.
  destruct (mag_of number flags =? 0) eqn:EM.
  - assert (EM0 : mag_of number flags = 0) by lia.
    assert (En : neg = false) by auto. assert (Er : r = 0) by (unfold r; now rewrite En).
    assert (pre = []) by (apply zlen_0; lia). subst pre. cbn [app].
    eexists. split.
    + do 3 f_equal. unfold text, ds. rewrite En, EM0, low_digits_0. cbn [sign_str app].
      rewrite <- app_assoc. cbn [app]. f_equal. unfold zrepeat. rewrite Nat2Z.id.
      clear. induction len; cbn; congruence.
    + rewrite Er. split; [intros; now replace (flags =? 0) with false by lia|].
      split; [|intros; lia]. intros -> _. cbn. lia.
  - rewrite digits_loop_ok; [|lia|lia|lia].
    cbn [bind]. fold ds. destruct (flags =? 0) eqn:EF.
    + assert (Hf0 : flags = 0) by lia. assert (En : neg = false) by auto.
      assert (Er : r = 0) by (unfold r; now rewrite En). rewrite En, Er in *. assert (pre = []) by (apply zlen_0; lia). subst pre.
      destruct (strip_ok (lower_of base flags) len ds [] 0 0 0 (0 :: suf) []) as [k [ds' [K1 [K2 [K3 K4]]]]]; try (zl; lia).
      { eapply Forall_impl; [|apply low_digits_ok; lia]. cbn; intros; lia. }
      cbn [app] in *. rewrite K4. cbn [bind]. exists (0 + (0 + k)). split.
      * unfold text. rewrite En. cbn [sign_str app]. rewrite <- app_assoc. reflexivity.
      * split; [lia|]. split; [lia|]. intros _ _. exists ds'. rewrite !Z.add_0_l. auto.
    + destruct neg eqn:EN.
      * assert (Er : r = 1) by reflexivity. rewrite Er in *. destruct pre as [|y [|]]; try (zl; zpos; lia). cbn [bind app].
        change (1 - 1) with 0. change (zwrite (y :: ?q) 0) with (zwrite ([] ++ y :: q) 0).
        rewrite (zwrite_at [] y) by reflexivity. cbn [bind app]. eexists. split.
        -- do 3 f_equal. unfold text. try rewrite EN. cbn [sign_str app]. rewrite <- app_assoc. reflexivity.
        -- split; [reflexivity|]. split; intros; lia.
      * assert (Er : r = 0) by reflexivity. rewrite Er in *. assert (pre = []) by (apply zlen_0; lia). subst pre. cbn [bind app]. eexists. split.
        -- do 3 f_equal. unfold text. try rewrite EN. cbn [sign_str app]. rewrite <- app_assoc. reflexivity.
        -- split; [reflexivity|]. split; intros; lia.
Qed.

Lemma is_repr_low (b n : Z) (m : nat) : 2 <= b -> 0 <= n -> n < b ^ Z.of_nat m ->
  (n = 0 /\ m = O \/ (0 < m)%nat /\ b ^ (Z.of_nat m - 1) <= n) ->
  is_repr b n (low_digits (Nat.max 1 m) b n).
Proof.
  intros Hb Hn H1 H2. split; [apply low_digits_ok; lia|].
  destruct H2 as [[-> ->]|[Hm Hlo]].
  - cbn [Nat.max low_digits]. rewrite Zmod_0_l. split; [reflexivity|]. left. reflexivity.
  - replace (Nat.max 1 m) with m by lia.
    pose proof (low_digits_value m b n ltac:(lia) Hn) as HV. rewrite Z.mod_small in HV by lia.
    split; [assumption|]. right. destruct (low_digits m b n) as [|d r] eqn:E.
    + pose proof (low_digits_len m b n) as HL. rewrite E in HL. change (zlen []) with 0 in HL. lia.
    + exists d, r. split; [reflexivity|]. intros ->. cbn [pos_value] in HV.
      assert (HO : digits_ok b (0 :: r)) by (rewrite <- E; apply low_digits_ok; lia).
      apply Forall_cons_iff in HO as [_ HO]. pose proof (pos_value_range b r ltac:(lia) HO).
      pose proof (low_digits_len m b n) as HL. rewrite E in HL. zl. replace (Z.of_nat m - 1) with (zlen r) in Hlo by lia. lia.
Qed.

(** C33 *)
Lemma nts_exact number base buffer flags :
  0 <= number < 2 ^ 64 -> 2 <= base <= 62 -> base mod 2 = 0 ->
  exists ds, is_repr base (mag_of number flags) ds /\
    let text := sign_str (neg_of number flags) ++ map (digit_char (lower_of base flags)) ds ++ [0] in
    (zlen text <= zlen buffer ->
     numberToString number base buffer 0 flags = Ret (Some (0, text ++ zdrop (zlen text) buffer))).
Proof.
  intros Hn Hb He.
  assert (Hmr : 0 <= mag_of number flags < 2 ^ Z.of_nat 64).
  { change (2 ^ Z.of_nat 64) with (2 ^ 64). unfold mag_of. destruct (neg_of number flags) eqn:E; [|lia]. unfold neg_of in E. lia. }
  destruct (lentest_ok base ltac:(lia) 64 (mag_of number flags) 0 Hmr) as [m [H1 [H2 H3]]].
  pose proof (is_repr_low base (mag_of number flags) m ltac:(lia) ltac:(lia) H2 H3) as HR.
  exists (low_digits (Nat.max 1 m) base (mag_of number flags)). split; [assumption|].
  intros text HL.
  assert (Hm64 : (m <= 64)%nat).
  { destruct H3 as [[_ ->]|[Hm Hlo]]; [lia|]. destruct (Nat.le_gt_cases m 64) as [|Hgt]; [assumption|exfalso].
    assert (2 ^ 64 <= base ^ (Z.of_nat m - 1)).
    { transitivity (2 ^ (Z.of_nat m - 1)); [apply Z.pow_le_mono_r; lia|apply Z.pow_le_mono_l; lia]. }
    change (2 ^ Z.of_nat 64) with (2 ^ 64) in Hmr. lia. }
  destruct (nts_core number base buffer 0 flags (Nat.max 1 m)) as [off [E [F1 [F2 F3]]]]; try assumption; try lia.
  { change (0 =? 0) with true. cbv iota. rewrite H1. cbn [bind]. f_equal. destruct (0 + Z.of_nat m =? 0) eqn:?; lia. }
  rewrite E. do 3 f_equal. destruct (Z.eq_dec flags 0) as [Hf|Hf]; [|now apply F1].
  destruct (Z.eq_dec (mag_of number flags) 0) as [Hz|Hz].
  - rewrite F2 by assumption. rewrite Hz in H3. destruct H3 as [[_ ->]|[Hm Hlo]]; [reflexivity|].
    assert (0 < base ^ (Z.of_nat m - 1)) by (apply Z.pow_pos_nonneg; lia). lia.
  - destruct (F3 Hf Hz) as [ds' [K1 [K2 _]]].
    destruct HR as [_ [HV [HR|[d [r [HR Hd]]]]]].
    + rewrite HR in HV. cbn in HV. lia.
    + rewrite HR in K1. destruct (Z.eq_dec off 0); [assumption|exfalso].
      unfold zrepeat in K1. destruct (Z.to_nat off) as [|k] eqn:Ek; [lia|]. cbn in K1. congruence.
Qed.

(** C34 *)
Lemma nts_padded number base buffer maxlen flags :
  0 <= number < 2 ^ 64 -> 2 <= base <= 62 -> base mod 2 = 0 -> 0 < maxlen <= 2147483647 ->
  maxlen + 1 + b2z (neg_of number flags) <= zlen buffer ->
  exists ds off,
    zlen ds = maxlen /\ digits_ok base ds /\ pos_value base ds = mag_of number flags mod base ^ maxlen /\
    let text := sign_str (neg_of number flags) ++ map (digit_char (lower_of base flags)) ds ++ [0] in
    numberToString number base buffer maxlen flags = Ret (Some (off, text ++ zdrop (zlen text) buffer)) /\
    (flags <> 0 -> off = 0) /\
    (flags = 0 -> number = 0 -> off = maxlen - 1) /\
    (flags = 0 -> number <> 0 -> exists ds', ds = zrepeat 0 off ++ ds' /\ 0 <= off /\
       (ds' = [] \/ exists d q, ds' = d :: q /\ d <> 0)).
Proof.
  intros Hn Hb He Hm HL.
  assert (Hmr : 0 <= mag_of number flags < 2 ^ 64).
  { unfold mag_of. destruct (neg_of number flags) eqn:E; [|lia]. unfold neg_of in E. lia. }
  set (len := Z.to_nat maxlen). assert (Elen : Z.of_nat len = maxlen) by lia.
  destruct (nts_core number base buffer maxlen flags len) as [off [E [F1 [F2 F3]]]]; try assumption; try lia.
  { replace (maxlen =? 0) with false by lia. now rewrite Elen. }
  { zl. rewrite low_digits_len. unfold sign_str. destruct (neg_of number flags); cbn [b2z] in HL; zl; lia. }
  exists (low_digits len base (mag_of number flags)), off.
  split; [rewrite low_digits_len; lia|]. split; [apply low_digits_ok; lia|].
  split; [rewrite low_digits_value by lia; now rewrite Elen|].
  assert (Hmn : flags = 0 -> mag_of number flags = number) by (intros ->; reflexivity).
  split; [exact E|]. split; [exact F1|]. split.
  - intros Hf Hz. rewrite <- Elen. apply F2; [assumption|]. rewrite Hmn; assumption.
  - intros Hf Hz. apply F3; [assumption|]. rewrite Hmn; assumption.
Qed.

(** decimal wrappers *)
Lemma int64ToString_ok n buffer : - 2 ^ 63 <= n < 2 ^ 63 ->
  exists s, is_decimal n s /\ (zlen s + 1 <= zlen buffer ->
    int64ToString n buffer = Ret (Some (0, s ++ 0 :: zdrop (zlen s + 1) buffer))).
Proof.
  intros Hn. assert (Hu : 0 <= u64 n < 2 ^ 64) by (unfold u64; lia).
  destruct (nts_exact (u64 n) 10 buffer 2 Hu ltac:(lia) eq_refl) as [ds [HR HE]].
  assert (Hneg : neg_of (u64 n) 2 = (n <? 0)) by (unfold neg_of, u64; cbn [Z.land Pos.land negb Z.eqb andb]; lia).
  assert (Hmag : mag_of (u64 n) 2 = Z.abs n).
  { unfold mag_of. rewrite Hneg. unfold u64. destruct (n <? 0) eqn:?; lia. }
  rewrite Hneg in HE. rewrite Hmag in HR. change (lower_of 10 2) with false in HE.
  exists (sign_str (n <? 0) ++ map (digit_char false) ds). split; [exists ds; auto|]. intros HL. unfold int64ToString.
  cbv zeta in HE. rewrite HE by (revert HL; zl; lia). do 3 f_equal. rewrite <- !app_assoc. cbn [app]. do 4 f_equal. zl. lia.
Qed.
Lemma uint64ToString_ok n buffer : 0 <= n < 2 ^ 64 ->
  exists s, is_decimal n s /\ (zlen s + 1 <= zlen buffer ->
    uint64ToString n buffer = Ret (Some (0, s ++ 0 :: zdrop (zlen s + 1) buffer))).
Proof.
  intros Hn. destruct (nts_exact n 10 buffer 0 Hn ltac:(lia) eq_refl) as [ds [HR HE]].
  change (neg_of n 0) with false in HE. change (mag_of n 0) with n in HR.
  change (lower_of 10 0) with false in HE. exists (map (digit_char false) ds). split.
  { exists ds. rewrite Z.abs_eq by lia. split; [assumption|]. replace (n <? 0) with false by lia. reflexivity. }
  intros HL. unfold uint64ToString. cbv zeta in HE. cbn [sign_str app] in HE. rewrite HE by (revert HL; zl; lia).
  do 3 f_equal. rewrite <- app_assoc. cbn [app]. do 3 f_equal. zl. lia.
Qed.

(** ---------- itoa / utoa ---------- *)
Lemma quot10 n : 0 <= n -> Z.quot n 10 = n / 10.
Proof. intros. apply Z.quot_div_nonneg; lia. Qed.
Lemma rem10 n : 0 <= n -> Z.rem n 10 = n mod 10.
Proof. intros. apply Z.rem_mod_nonneg; lia. Qed.

Lemma xtoa_len_ok : forall (k : nat) n l, (0 < k)%nat -> 0 <= n < 10 ^ Z.of_nat k ->
  exists m : nat, (0 < m <= k)%nat /\ xtoa_len k n l = Ret (l + Z.of_nat m) /\ n < 10 ^ Z.of_nat m /\
    (m = 1%nat \/ 10 ^ (Z.of_nat m - 1) <= n).
Proof.
  induction k as [|k IH]; intros n l Hk Hn; [lia|]. cbn [xtoa_len]. rewrite quot10 by lia.
  destruct (n / 10 =? 0) eqn:E.
  - exists 1%nat. split; [lia|]. split; [reflexivity|]. change (10 ^ Z.of_nat 1) with 10. split; [lia|auto].
  - rewrite Nat2Z.inj_succ, Z.pow_succ_r in Hn by lia.
    destruct k as [|k]; [cbn in Hn; lia|].
    destruct (IH (n / 10) (l + 1)) as [m [Hm [H1 [H2 H3]]]]; [lia|lia|].
    exists (S m). split; [lia|]. rewrite H1. split; [f_equal; lia|].
    rewrite Nat2Z.inj_succ, Z.pow_succ_r by lia. split; [lia|]. right.
    replace (Z.succ (Z.of_nat m) - 1) with (Z.succ (Z.of_nat m - 1)) by lia. rewrite Z.pow_succ_r by lia.
    destruct H3 as [->|H3]; [cbn; lia|lia].
Qed.
(* the length of a negative number is the one of its absolute value *)
Lemma xtoa_len_opp k : forall n l, xtoa_len k (- n) l = xtoa_len k n l.
Proof.
  induction k as [|k IH]; intros n l; [reflexivity|]. cbn [xtoa_len]. rewrite Z.quot_opp_l by lia.
  rewrite IH. replace (- (n ÷ 10) =? 0) with (n ÷ 10 =? 0) by lia. reflexivity.
Qed.

Lemma xtoa_digits_ok : forall (m k : nat) n pre f suf r, (0 < m <= k)%nat -> 0 <= n < 10 ^ Z.of_nat m ->
  (m = 1%nat \/ 10 ^ (Z.of_nat m - 1) <= n) -> zlen f = Z.of_nat m -> r = zlen pre ->
  xtoa_digits k (pre ++ f ++ suf) n r (Z.of_nat m) = Ret (pre ++ map (digit_char false) (low_digits m 10 n) ++ suf).
Proof.
  induction m as [|m IH]; intros k n pre f suf r Hm Hn Hlo Hf Hr; [lia|]. destruct k as [|k]; [lia|].
  cbn [xtoa_digits]. rewrite rem10 by lia.
  assert (Hsp : exists f' x, f = f' ++ [x] /\ zlen f' = Z.of_nat m).
  { destruct (exists_last (l := f)) as [f' [x ->]]; [intros ->; cbn in Hf; lia|].
    exists f', x. split; [reflexivity|]. zl. lia. }
  destruct Hsp as [f' [x [-> Hf']]]. rewrite <- (app_assoc f'). rewrite app_assoc. cbn [app].
  rewrite zwrite_at by (zl; lia). cbn [bind].
  rewrite quot10 by lia. replace ((n - n mod 10) / 10) with (n / 10) by lia.
  assert (Hdc : 48 + n mod 10 = digit_char false (n mod 10)) by (unfold digit_char; replace (n mod 10 <? 10) with true by lia; reflexivity).
  rewrite Hdc. cbn [low_digits]. rewrite map_app, <- !app_assoc. cbn [map app].
  rewrite Nat2Z.inj_succ, Z.pow_succ_r in Hn by lia. replace (Z.of_nat (S m) - 1) with (Z.of_nat m) in * by lia.
  destruct m as [|m].
  - cbn [low_digits map app]. apply zlen_0 in Hf'. subst f'. cbn [app].
    replace (n / 10 =? 0) with true; [reflexivity|]. cbn in Hn. lia.
  - destruct Hlo as [Hlo|Hlo]; [lia|]. rewrite Nat2Z.inj_succ, Z.pow_succ_r in Hlo by lia.
    assert (0 < 10 ^ Z.of_nat m) by (apply Z.pow_pos_nonneg; lia).
    replace (n / 10 =? 0) with false by lia.
    rewrite IH; [reflexivity|lia|lia| |assumption|assumption].
    right. replace (Z.of_nat (S m) - 1) with (Z.of_nat m) by lia. lia.
Qed.

Lemma xtoa_text (n : Z) (m : nat) : 0 <= n -> (0 < m)%nat -> n < 10 ^ Z.of_nat m -> (m = 1%nat \/ 10 ^ (Z.of_nat m - 1) <= n) ->
  is_repr 10 n (low_digits m 10 n).
Proof.
  intros Hn Hm H1 H2. destruct (Z.eq_dec n 0) as [->|Hne].
  - destruct H2 as [->|H2].
    + split; [apply low_digits_ok; lia|]. split; [reflexivity|left; reflexivity].
    + assert (0 < 10 ^ (Z.of_nat m - 1)) by (apply Z.pow_pos_nonneg; lia). lia.
  - replace m with (Nat.max 1 m) by lia. apply is_repr_low; try lia. right. split; [lia|].
    destruct H2 as [->|H2]; [cbn; lia|lia].
Qed.

Lemma itoa_ok n buffer : -2147483648 < n < 2147483648 ->
  exists s, is_decimal n s /\ zlen s <= 11 /\ (zlen s + 1 <= zlen buffer ->
    itoa n buffer = Ret (s ++ 0 :: zdrop (zlen s + 1) buffer)).
Proof.
  intros Hn. destruct (xtoa_len_ok 11 (Z.abs n) 0) as [m [Hm [H1 [H2 H3]]]]; [lia|cbn; lia|].
  assert (Hm10 : (m <= 10)%nat).
  { destruct H3 as [->|H3]; [lia|]. assert (m = 11 \/ m <= 10)%nat as [->|] by lia; [cbn in H3; lia|assumption]. }
  exists (sign_str (n <? 0) ++ map (digit_char false) (low_digits m 10 (Z.abs n))).
  split; [exists (low_digits m 10 (Z.abs n)); split; [apply xtoa_text; (assumption || lia)|reflexivity]|].
  pose proof (low_digits_len m 10 (Z.abs n)) as HLn.
  assert (Hss : zlen (sign_str (n <? 0)) = b2z (n <? 0)) by (destruct (n <? 0); reflexivity).
  zl. rewrite HLn, Hss. split; [destruct (n <? 0); cbn [b2z]; lia|]. intros HL.
  unfold itoa. rewrite Z.shiftr_div_pow2 by lia.
  assert (negb (n / 2 ^ 31 =? 0) = (n <? 0)) as -> by lia.
  assert (Hstart : exists pre rest0, zlen pre = b2z (n <? 0) /\ pre = sign_str (n <? 0) /\
    (if n <? 0 then let* n0 := int_r (n * -1) in let* b := zwrite buffer 0 45 in Ret (n0, b, 1) else Ret (n, buffer, 0))
     = Ret (Z.abs n, pre ++ rest0, b2z (n <? 0)) /\ rest0 = zdrop (b2z (n <? 0)) buffer).
  { destruct (n <? 0) eqn:E; cbn [b2z sign_str].
    - destruct (zlen_cons_inv buffer) as [x [q ->]]; [cbn [b2z] in HL; lia|]. exists [45], q.
      split; [reflexivity|]. split; [reflexivity|]. unfold int_r, int_ok. replace (_ && _) with true by lia. cbn [bind].
      rewrite (zwrite_at [] x q) by reflexivity. cbn [bind]. split; [do 3 f_equal; lia|reflexivity].
    - exists [], buffer. split; [reflexivity|]. split; [reflexivity|]. split; [do 3 f_equal; lia|reflexivity]. }
  destruct Hstart as [pre [rest0 [Hp1 [Hp2 [-> Hr0]]]]]. cbn [bind]. rewrite H1. cbn [bind]. rewrite Z.add_0_l.
  assert (Hb01 : 0 <= b2z (n <? 0) <= 1) by (destruct (n <? 0); cbn; lia).
  assert (Hzr : zlen rest0 = zlen buffer - b2z (n <? 0)) by (rewrite Hr0; apply zlen_zdrop; lia).
  destruct (zsplit (Z.of_nat m) rest0) as [f [suf0 [Er Hf]]]; [lia|]. rewrite Er.
  destruct (zlen_cons_inv suf0) as [x [suf ->]]; [rewrite Er in Hzr; zl; lia|].
  rewrite app_assoc, zwrite_at by (zl; lia). cbn [bind]. rewrite <- app_assoc.
  rewrite xtoa_digits_ok by (try assumption; lia). rewrite Hp2, <- !app_assoc. do 4 f_equal.
  replace (b2z (n <? 0) + Z.of_nat m + 1) with (Z.of_nat m + 1 + b2z (n <? 0)) by lia.
  rewrite <- zdrop_zdrop by lia. rewrite <- Hr0, Er.
  change (f ++ x :: suf) with (f ++ [x] ++ suf). rewrite app_assoc.
  replace (Z.of_nat m + 1) with (zlen (f ++ [x])) by (zl; lia). now rewrite zdrop_app_exact.
Qed.
Lemma itoa_min buffer : itoa (-2147483648) buffer = UB.
Proof. reflexivity. Qed.

Lemma utoa_ok n buffer : 0 <= n <= 3294967296 ->
  exists s, is_decimal n s /\ zlen s <= 10 /\ (zlen s + 1 <= zlen buffer ->
    utoa n buffer = Ret (s ++ 0 :: zdrop (zlen s + 1) buffer)).
Proof.
  intros Hn. destruct (xtoa_len_ok 11 n 0) as [m [Hm [H1 [H2 H3]]]]; [lia|cbn; lia|].
  assert (Hm10 : (m <= 10)%nat).
  { destruct H3 as [->|H3]; [lia|]. assert (m = 11 \/ m <= 10)%nat as [->|] by lia; [cbn in H3; lia|assumption]. }
  exists (map (digit_char false) (low_digits m 10 n)).
  split. { exists (low_digits m 10 n). rewrite Z.abs_eq by lia. split; [apply xtoa_text; (assumption || lia)|].
           replace (n <? 0) with false by lia. reflexivity. }
  pose proof (low_digits_len m 10 n) as HLn. zl. rewrite HLn. split; [lia|]. intros HL.
  unfold utoa.
  assert (xtoa_len 11 (s32 n) 0 = Ret (Z.of_nat m)) as ->.
  { rewrite <- (Z.add_0_l (Z.of_nat m)). rewrite <- H1. destruct (Z_lt_le_dec n 2147483648).
    - f_equal. unfold s32. lia.
    - rewrite H1. replace (s32 n) with (- (4294967296 - n)) by (unfold s32; lia). rewrite xtoa_len_opp.
      destruct (xtoa_len_ok 11 (4294967296 - n) 0) as [m' [Hm' [H1' [H2' H3']]]]; [lia|change (10 ^ Z.of_nat 11) with 100000000000; lia|].
      rewrite H1'. do 3 f_equal.
      assert (HU : forall (q : nat) v, (0 < q)%nat -> 1000000000 <= v < 10000000000 -> v < 10 ^ Z.of_nat q ->
        (q = 1%nat \/ 10 ^ (Z.of_nat q - 1) <= v) -> q = 10%nat).
      { intros q v Hq Hv Ha Hb. destruct Hb as [->|Hb]; [change (10 ^ Z.of_nat 1) with 10 in Ha; lia|].
        destruct (Nat.lt_trichotomy q 10) as [HX|[HX|HX]]; [|assumption|]; exfalso.
        - assert (10 ^ Z.of_nat q <= 10 ^ 9) by (apply Z.pow_le_mono_r; lia). change (10 ^ 9) with 1000000000 in *. lia.
        - assert (10 ^ 10 <= 10 ^ (Z.of_nat q - 1)) by (apply Z.pow_le_mono_r; lia). change (10 ^ 10) with 10000000000 in *. lia. }
      rewrite (HU m n) by (assumption || lia). rewrite (HU m' (4294967296 - n)) by (assumption || lia). reflexivity. }
  cbn [bind]. rewrite Z.add_0_l.
  destruct (zsplit (Z.of_nat m) buffer) as [f [suf0 [-> Hf]]]; [lia|].
  destruct (zlen_cons_inv suf0) as [x [suf ->]]; [zl; lia|].
  rewrite zwrite_at by lia. cbn [bind].
  change (f ++ 0 :: suf) with ([] ++ f ++ 0 :: suf).
  rewrite (xtoa_digits_ok m 11 n [] f (0 :: suf) 0) by (try assumption; try reflexivity; lia). cbn [app]. do 3 f_equal.
  change (f ++ x :: suf) with (f ++ [x] ++ suf). rewrite app_assoc.
  replace (Z.of_nat m + 1) with (zlen (f ++ [x])) by (zl; lia). now rewrite zdrop_app_exact.
Qed.

Lemma xtoa_digits_under : forall (m k : nat) n buffer, (m < k)%nat -> 10 ^ Z.of_nat m <= n ->
  Z.of_nat m <= zlen buffer -> xtoa_digits k buffer n 0 (Z.of_nat m) = UB.
Proof.
  induction m as [|m IH]; intros k n buffer Hk Hn HL; (destruct k as [|k]; [lia|]); cbn [xtoa_digits].
  - rewrite zwrite_oob by lia. reflexivity.
  - rewrite Nat2Z.inj_succ, Z.pow_succ_r in Hn by lia.
    assert (0 < 10 ^ Z.of_nat m) by (apply Z.pow_pos_nonneg; lia).
    rewrite rem10 by lia. rewrite zwrite_ok by lia. cbn [bind].
    rewrite quot10 by lia. replace ((n - n mod 10) / 10) with (n / 10) by lia.
    replace (n / 10 =? 0) with false by lia. replace (Z.of_nat (S m) - 1) with (Z.of_nat m) by lia.
    apply IH; [lia|lia|]. rewrite zlen_upd by lia. lia.
Qed.
Lemma len_uniq v (p q : nat) : (0 < p)%nat -> (0 < q)%nat -> v < 10 ^ Z.of_nat p -> v < 10 ^ Z.of_nat q ->
  (p = 1%nat \/ 10 ^ (Z.of_nat p - 1) <= v) -> (q = 1%nat \/ 10 ^ (Z.of_nat q - 1) <= v) -> p = q.
Proof.
  intros Hp Hq H1 H2 H3 H4. destruct (Nat.lt_trichotomy p q) as [HX|[HX|HX]]; [|assumption|]; exfalso.
  - destruct H4 as [H4|H4]; [lia|]. assert (10 ^ Z.of_nat p <= 10 ^ (Z.of_nat q - 1)) by (apply Z.pow_le_mono_r; lia). lia.
  - destruct H3 as [H3|H3]; [lia|]. assert (10 ^ Z.of_nat q <= 10 ^ (Z.of_nat p - 1)) by (apply Z.pow_le_mono_r; lia). lia.
Qed.
Lemma utoa_bad n buffer : 3294967296 < n < 4294967296 -> 11 <= zlen buffer -> utoa n buffer = UB.
Proof.
  intros Hn HL. unfold utoa. replace (s32 n) with (- (4294967296 - n)) by (unfold s32; lia). rewrite xtoa_len_opp.
  destruct (xtoa_len_ok 9 (4294967296 - n) 0) as [m [Hm [H1 [H2 H3]]]]; [lia|change (10 ^ Z.of_nat 9) with 1000000000; lia|].
  assert (xtoa_len 11 (4294967296 - n) 0 = Ret (0 + Z.of_nat m)) as ->.
  { destruct (xtoa_len_ok 11 (4294967296 - n) 0) as [m' [Hm' [H1' [H2' H3']]]]; [lia|change (10 ^ Z.of_nat 11) with 100000000000; lia|].
    rewrite H1'. do 3 f_equal. apply (len_uniq (4294967296 - n)); auto; lia. }
  cbn [bind]. rewrite !Z.add_0_l. rewrite zwrite_ok by lia. cbn [bind].
  apply xtoa_digits_under; [lia| |rewrite zlen_upd by lia; lia].
  assert (10 ^ Z.of_nat m <= 10 ^ 9) by (apply Z.pow_le_mono_r; lia). change (10 ^ 9) with 1000000000 in *. lia.
Qed.

(** ---------- strtoint ---------- *)
Lemma i64_r_ok x : -9223372036854775808 <= x <= 9223372036854775807 -> i64_r x = Ret x.
Proof. intros. unfold i64_r, i64_ok. replace (_ && _) with true by lia. reflexivity. Qed.
Lemma i64_r_bad x : x < -9223372036854775808 \/ 9223372036854775807 < x -> i64_r x = UB.
Proof. intros. unfold i64_r, i64_ok. replace (_ && _) with false by lia. reflexivity. Qed.
Lemma s32_s32 a b : s32 (s32 a + b) = s32 (a + b).
Proof. unfold s32. lia. Qed.
Lemma dc10 d : 0 <= d < 10 -> s8 (digit_char false d) - 48 = d.
Proof. intros. unfold digit_char. replace (d <? 10) with true by lia. unfold s8. lia. Qed.
Lemma pow18 k : 0 <= k <= 18 -> 1 <= 10 ^ k <= 10 ^ 18.
Proof. intros. split; [change 1 with (10 ^ 0); apply Z.pow_le_mono_r; lia|apply Z.pow_le_mono_r; lia]. Qed.

Lemma snoc_inv {A} (l : list A) n : zlen l = Z.of_nat (S n) -> exists l' x, l = l' ++ [x] /\ zlen l' = Z.of_nat n.
Proof.
  intros H. destruct (exists_last (l := l)) as [l' [x ->]]; [intros ->; cbn in H; lia|].
  exists l', x. split; [reflexivity|]. zl. lia.
Qed.
Lemma digits_ok_app b x y : digits_ok b (x ++ y) <-> digits_ok b x /\ digits_ok b y.
Proof. apply Forall_app. Qed.

(** suffix [t] already consumed *)
Lemma strtoint_loop_ok : forall (n : nat) ds t pre rest k,
  zlen ds = Z.of_nat n -> k = zlen t -> digits_ok 10 ds -> digits_ok 10 t -> zlen ds + zlen t <= 18 ->
  strtoint_loop n (pre ++ map (digit_char false) ds ++ rest) (zlen pre + zlen ds - 1) (10 ^ k) (s32 (pos_value 10 t)) =
  Ret (s32 (pos_value 10 (ds ++ t))) /\
  strtoint64_loop n (pre ++ map (digit_char false) ds ++ rest) (zlen pre + zlen ds - 1) (10 ^ k) (pos_value 10 t) =
  Ret (pos_value 10 (ds ++ t)).
Proof.
  induction n as [|n IH]; intros ds t pre rest k Hn Hk HD HT HL; cbn [strtoint_loop strtoint64_loop].
  - apply zlen_0 in Hn. subst ds. split; reflexivity.
  - destruct (snoc_inv ds n Hn) as [ds' [d [-> Hn']]]. apply digits_ok_app in HD as [HD Hd].
    apply Forall_cons_iff in Hd as [Hd _]. rewrite map_app. cbn [map]. rewrite <- app_assoc. cbn [app].
    rewrite app_assoc. zl. zpos. rewrite zread_at by (zl; lia). cbn [bind]. rewrite dc10 by assumption.
    pose proof (pow18 k ltac:(lia)) as HP. pose proof (pos_value_range 10 t ltac:(lia) HT) as HV.
    pose proof (pow18 (zlen t) ltac:(lia)) as HP2.
    assert (0 <= d * 10 ^ k <= 9 * 10 ^ 18) by nia. change (10 ^ 18) with 1000000000000000000 in *.
    rewrite i64_r_ok by lia. cbn [bind].
    assert (Hs32 : -2147483648 <= s32 (pos_value 10 t) < 2147483648) by (unfold s32; lia).
    pose proof (pow18 (k + 1) ltac:(lia)) as HPk. rewrite Z.pow_add_r in HPk by lia. change (10 ^ 1) with 10 in HPk.
    change (10 ^ 18) with 1000000000000000000 in *. assert (d * 10 ^ k <= 9 * 10 ^ k) by nia.
    rewrite (i64_r_ok (s32 (pos_value 10 t) + d * 10 ^ k)), (i64_r_ok (pos_value 10 t + d * 10 ^ k)), (i64_r_ok (10 ^ k * 10)) by lia.
    cbn [bind]. rewrite s32_s32.
    assert (HPV : pos_value 10 t + d * 10 ^ k = pos_value 10 (d :: t)) by (cbn [pos_value]; rewrite Hk; lia).
    rewrite HPV. rewrite <- app_assoc. cbn [app].
    replace (zlen pre + (zlen ds' + (1 + 0)) - 1 - 1) with (zlen pre + zlen ds' - 1) by lia.
    replace (10 ^ k * 10) with (10 ^ (k + 1)) by (rewrite Z.pow_add_r by lia; lia).
    rewrite <- (app_assoc ds' [d] t). cbn [app].
    destruct (IH ds' (d :: t) pre (digit_char false d :: rest) (k + 1)) as [I1 I2]; try assumption; try (zl; lia).
    { constructor; assumption. }
    split; [exact I1|exact I2].
Qed.

(** 19 digits or more: the multiplier overflows *)
Lemma strtoint_loop_long : forall (n : nat) ds t pre rest k,
  zlen ds = Z.of_nat n -> k = zlen t -> digits_ok 10 ds -> digits_ok 10 t -> zlen ds + zlen t >= 19 -> zlen t <= 18 ->
  strtoint_loop n (pre ++ map (digit_char false) ds ++ rest) (zlen pre + zlen ds - 1) (10 ^ k) (s32 (pos_value 10 t)) = UB /\
  strtoint64_loop n (pre ++ map (digit_char false) ds ++ rest) (zlen pre + zlen ds - 1) (10 ^ k) (pos_value 10 t) = UB.
Proof.
  induction n as [|n IH]; intros ds t pre rest k Hn Hk HD HT HL HL18; cbn [strtoint_loop strtoint64_loop]; [lia|].
  destruct (snoc_inv ds n Hn) as [ds' [d [-> Hn']]]. apply digits_ok_app in HD as [HD Hd].
  apply Forall_cons_iff in Hd as [Hd _]. rewrite map_app. cbn [map]. rewrite <- app_assoc. cbn [app].
  rewrite app_assoc. zl. zpos. rewrite zread_at by (zl; lia). cbn [bind]. rewrite dc10 by assumption.
  pose proof (pow18 k ltac:(lia)) as HP. pose proof (pos_value_range 10 t ltac:(lia) HT) as HV.
  pose proof (pow18 (zlen t) ltac:(lia)) as HP2.
  assert (0 <= d * 10 ^ k <= 9 * 10 ^ 18) by nia. change (10 ^ 18) with 1000000000000000000 in *.
  rewrite i64_r_ok by lia. cbn [bind].
  assert (Hs32 : -2147483648 <= s32 (pos_value 10 t) < 2147483648) by (unfold s32; lia).
  destruct (Z.eq_dec k 18) as [Hk18|Hk18].
  - rewrite Hk18. change (10 ^ 18 * 10) with 10000000000000000000.
    rewrite (i64_r_bad 10000000000000000000) by lia.
    assert (HF : forall x (f : Z -> out Z), (forall y, f y = UB) -> bind (i64_r x) f = UB)
      by (intros x f Hfx; unfold i64_r; destruct (i64_ok x); cbn [bind]; auto).
    split; apply HF; reflexivity.
  - pose proof (pow18 (k + 1) ltac:(lia)) as HPk. rewrite Z.pow_add_r in HPk by lia. change (10 ^ 1) with 10 in HPk.
    change (10 ^ 18) with 1000000000000000000 in *.
    assert (d * 10 ^ k <= 9 * 10 ^ k) by nia.
    rewrite (i64_r_ok (s32 (pos_value 10 t) + d * 10 ^ k)), (i64_r_ok (pos_value 10 t + d * 10 ^ k)), (i64_r_ok (10 ^ k * 10)) by lia.
    cbn [bind]. rewrite s32_s32.
    assert (HPV : pos_value 10 t + d * 10 ^ k = pos_value 10 (d :: t)) by (cbn [pos_value]; rewrite Hk; lia).
    rewrite HPV. rewrite <- app_assoc. cbn [app].
    replace (zlen pre + (zlen ds' + (1 + 0)) - 1 - 1) with (zlen pre + zlen ds' - 1) by lia.
    replace (10 ^ k * 10) with (10 ^ (k + 1)) by (rewrite Z.pow_add_r by lia; lia).
    destruct (IH ds' (d :: t) pre (digit_char false d :: rest) (k + 1)) as [I1 I2]; try assumption; try (zl; lia).
    { constructor; assumption. }
    split; [exact I1|exact I2].
Qed.

Lemma dc_not_minus d : 0 <= d < 10 -> (digit_char false d =? 45) = false.
Proof. intros. unfold digit_char. replace (d <? 10) with true by lia. lia. Qed.

Section ByIdentity.
Variables (neg : bool) (ds rest : list Z).
Let str := sign_str neg ++ map (digit_char false) ds ++ rest.
Let len := b2z neg + zlen ds.

Lemma str0 : 0 < zlen ds -> digits_ok 10 ds -> exists c, zread str 0 = Ret c /\ (c =? 45) = neg.
Proof.
  intros HL HD. unfold str, sign_str. destruct neg.
  - exists 45. split; reflexivity.
  - destruct ds as [|d q]; [zl; lia|]. apply Forall_cons_iff in HD as [Hd _]. cbn [app map].
    exists (digit_char false d). split; [apply zread_cons0|now apply dc_not_minus].
Qed.

Lemma strtoint_run : 0 < zlen ds -> digits_ok 10 ds -> zlen ds <= 18 ->
  strtoint str len = (if neg then int_r (- s32 (pos_value 10 ds)) else Ret (s32 (pos_value 10 ds))) /\
  strtoint64 str len = Ret (if neg then - pos_value 10 ds else pos_value 10 ds).
Proof.
  intros HL HD H18. destruct (str0 HL HD) as [c [Hc Hm]].
  assert (Hb : zlen (sign_str neg) = b2z neg) by (destruct neg; reflexivity).
  assert (Hb2 : 0 <= b2z neg <= 1) by (destruct neg; cbn; lia).
  unfold strtoint, strtoint64. replace (len =? 0) with false by (unfold len; lia).
  rewrite Hc. cbn [bind]. rewrite Hm. change (if neg then 1 else 0) with (b2z neg).
  replace (len - b2z neg) with (zlen ds) by (unfold len; lia).
  destruct (strtoint_loop_ok (Z.to_nat (zlen ds)) ds [] (sign_str neg) rest 0) as [I1 I2]; try assumption; try lia; try reflexivity.
  { constructor. } { change (zlen []) with 0. lia. }
  rewrite app_nil_r, Hb in I1, I2. change (pos_value 10 []) with 0 in *. change (10 ^ 0) with 1 in *.
  change (s32 0) with 0 in I1. unfold str, len. rewrite I1, I2. cbn [bind].
  assert (HV : 0 <= pos_value 10 ds < 10 ^ 18).
  { pose proof (pos_value_range 10 ds ltac:(lia) HD). pose proof (pow18 (zlen ds) ltac:(lia)). lia. }
  change (10 ^ 18) with 1000000000000000000 in HV.
  destruct neg; [|split; reflexivity]. rewrite i64_r_ok by lia. split; [f_equal; lia|f_equal; lia].
Qed.

Lemma strtoint_long : digits_ok 10 ds -> 19 <= zlen ds -> strtoint str len = UB /\ strtoint64 str len = UB.
Proof.
  intros HD H19. destruct (str0 ltac:(lia) HD) as [c [Hc Hm]].
  assert (Hb : zlen (sign_str neg) = b2z neg) by (destruct neg; reflexivity).
  assert (Hb2 : 0 <= b2z neg <= 1) by (destruct neg; cbn; lia).
  unfold strtoint, strtoint64. replace (len =? 0) with false by (unfold len; lia).
  rewrite Hc. cbn [bind]. rewrite Hm. change (if neg then 1 else 0) with (b2z neg).
  replace (len - b2z neg) with (zlen ds) by (unfold len; lia).
  destruct (strtoint_loop_long (Z.to_nat (zlen ds)) ds [] (sign_str neg) rest 0) as [I1 I2]; try assumption; try lia; try reflexivity.
  { constructor. } { change (zlen []) with 0. lia. } { change (zlen []) with 0. lia. }
  rewrite Hb in I1, I2. change (pos_value 10 []) with 0 in *. change (10 ^ 0) with 1 in *.
  change (s32 0) with 0 in I1. unfold str, len. rewrite I1, I2. split; reflexivity.
Qed.
End ByIdentity.

Lemma digits_le b ds k : 2 <= b -> 0 <= k -> (exists n, is_repr b n ds /\ n < b ^ k) -> 1 <= k -> 1 <= zlen ds <= k.
Proof.
  intros Hb Hk [n [HR Hn]] Hk1. destruct (repr_low b n ds Hb HR) as [[_ ->]|[H1 [H2 _]]].
  - change (zlen [0]) with 1. lia.
  - split; [lia|]. destruct (Z_le_gt_dec (zlen ds) k) as [|Hgt]; [assumption|exfalso].
    assert (b ^ k <= b ^ (zlen ds - 1)) by (apply Z.pow_le_mono_r; lia). lia.
Qed.

Lemma strtoint_inverts n s rest : is_decimal n s -> -2147483648 < n < 2147483648 ->
  strtoint (s ++ rest) (zlen s) = Ret n.
Proof.
  intros [ds [HR ->]] Hn. destruct (digits_le 10 ds 10) as [L1 L2]; try lia.
  { exists (Z.abs n). split; [assumption|]. cbn. lia. }
  destruct HR as [HD [HV _]].
  destruct (strtoint_run (n <? 0) ds rest) as [E _]; try assumption; try lia.
  rewrite <- app_assoc. replace (zlen (sign_str (n <? 0) ++ map (digit_char false) ds)) with (b2z (n <? 0) + zlen ds)
    by (zl; destruct (n <? 0); reflexivity).
  rewrite E, HV. unfold s32, int_r, int_ok. destruct (n <? 0) eqn:?; [|f_equal; lia].
  replace (_ && _) with true by lia. f_equal. lia.
Qed.
Lemma strtoint64_inverts n s rest : is_decimal n s -> - 10 ^ 18 < n < 10 ^ 18 ->
  strtoint64 (s ++ rest) (zlen s) = Ret n.
Proof.
  intros [ds [HR ->]] Hn. destruct (digits_le 10 ds 18) as [L1 L2]; try lia.
  { exists (Z.abs n). split; [assumption|]. lia. }
  destruct HR as [HD [HV _]].
  destruct (strtoint_run (n <? 0) ds rest) as [_ E]; try assumption; try lia.
  rewrite <- app_assoc. replace (zlen (sign_str (n <? 0) ++ map (digit_char false) ds)) with (b2z (n <? 0) + zlen ds)
    by (zl; destruct (n <? 0); reflexivity).
  rewrite E, HV. destruct (n <? 0) eqn:?; f_equal; lia.
Qed.

Lemma nts_other_base number base buffer maxlen flags : base mod 2 <> 0 \/ 62 < base ->
  numberToString number base buffer maxlen flags = Ret None.
Proof.
  intros H. unfold numberToString. change conv_cypher_len with 62.
  replace (negb (base mod 2 =? 0) || (62 <? base)) with true by lia. reflexivity.
Qed.
Lemma intToString_ok n buffer : - 2 ^ 31 <= n < 2 ^ 31 ->
  exists s, is_decimal n s /\ (zlen s + 1 <= zlen buffer ->
    intToString n buffer = Ret (Some (0, s ++ 0 :: zdrop (zlen s + 1) buffer))).
Proof. intros. apply int64ToString_ok. lia. Qed.
Lemma uintToString_ok n buffer : 0 <= n < 2 ^ 32 ->
  exists s, is_decimal n s /\ (zlen s + 1 <= zlen buffer ->
    uintToString n buffer = Ret (Some (0, s ++ 0 :: zdrop (zlen s + 1) buffer))).
Proof. intros. apply uint64ToString_ok. lia. Qed.

Lemma decimal_nz n s : is_decimal n s -> nz s.
Proof.
  intros [ds [[HD _] ->]]. apply nz_app. split; [destruct (n <? 0); repeat constructor; lia|].
  induction HD as [|d ds Hd _ IH]; [constructor|]. cbn [map]. apply nz_cons. split; [|assumption].
  unfold digit_char. replace (d <? 10) with true by lia. lia.
Qed.
Lemma decimal_len n s k : is_decimal n s -> 1 <= k -> Z.abs n < 10 ^ k -> 1 <= zlen s <= k + 1.
Proof.
  intros [ds [HR ->]] Hk Hn. destruct (digits_le 10 ds k) as [L1 L2]; try lia; [eauto|].
  zl. destruct (n <? 0); cbn [sign_str]; zl; lia.
Qed.
Lemma strtoint_intToString n buffer : -2147483648 < n < 2147483648 -> 12 <= zlen buffer ->
  exists buf len, intToString n buffer = Ret (Some (0, buf)) /\ strlen buf 0 = Ret len /\ strtoint buf len = Ret n.
Proof.
  intros Hn HL. destruct (intToString_ok n buffer) as [s [HS HE]]; [lia|].
  pose proof (decimal_len n s 10 HS ltac:(lia) ltac:(change (10 ^ 10) with 10000000000; lia)).
  eexists _, (zlen s). split; [apply HE; lia|]. split.
  - apply strlen_0. eapply decimal_nz; eauto.
  - apply strtoint_inverts; assumption.
Qed.
