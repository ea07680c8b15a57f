(** Proofs about bit arrays. *)
From Verif Require Import Base Bits M_bitarray S_bitarray.
Ltac Zify.zify_post_hook ::= Z.div_mod_to_equations.

Lemma bin_len n : forall v, zlen (bin n v) = Z.of_nat n.
Proof. induction n; intros v; cbn [bin]; [reflexivity|]. zl. rewrite IHn. lia. Qed.
Lemma bin_nth n : forall v k, 0 <= k < Z.of_nat n -> znth false (bin n v) k = Z.testbit v k.
Proof.
  induction n as [|n IH]; intros v k Hk; [lia|]. cbn [bin]. destruct (Z.eq_dec k 0) as [->|N].
  - rewrite znth_cons0. rewrite Z.bit0_odd. rewrite Zmod_odd. destruct (Z.odd v); reflexivity.
  - rewrite znth_consS by lia. rewrite IH by lia. rewrite <- Z.div2_div, Z.div2_spec, Z.shiftr_spec by lia. f_equal. lia.
Qed.
Lemma bits_len (f : Z -> list bool) a : (forall b, zlen (f b) = 8) -> zlen (concat (map f a)) = 8 * zlen a.
Proof. intros F. induction a as [|b a IH]; [reflexivity|]. cbn [map concat]. rewrite zlen_app, F, IH. zl. lia. Qed.
Lemma bits_nth (f : Z -> list bool) : (forall b, zlen (f b) = 8) -> forall a i, 0 <= i < 8 * zlen a -> znth false (concat (map f a)) i = znth false (f (znth 0 a (i / 8))) (i mod 8).
Proof.
  intros F. induction a as [|b a IH]; intros i Hi; [revert Hi; zl; change (zlen (@nil Z)) with 0; lia|]. cbn [map concat]. rewrite zlen_cons in Hi. destruct (Z_lt_le_dec i 8).
  - rewrite znth_app1 by (rewrite F; lia). replace (i / 8) with 0 by lia. replace (i mod 8) with i by lia. reflexivity.
  - rewrite znth_app2 by (rewrite F; lia). rewrite F, IH by lia. rewrite znth_consS by lia. replace ((i - 8) / 8) with (i / 8 - 1) by lia. replace ((i - 8) mod 8) with (i mod 8) by lia. reflexivity.
Qed.
Lemma bit_at a i : 0 <= i < 8 * zlen a -> znth false (bits a) i = Z.testbit (znth 0 a (i / 8)) (i mod 8).
Proof. intros Hi. unfold bits. rewrite bits_nth by (exact (bin_len 8) || lia). apply bin_nth. lia. Qed.
Lemma land_bit b k : 0 <= k -> (if Z.land b (Z.shiftl 1 k) =? 0 then 0 else 1) = b2c (Z.testbit b k).
Proof.
  intros K. rewrite Z.shiftl_1_l. destruct (Z.testbit b k) eqn:T.
  - destruct (Z.eqb_spec (Z.land b (2 ^ k)) 0) as [E|E]; [|reflexivity]. exfalso. assert (H : Z.testbit (Z.land b (2 ^ k)) k = true) by (rewrite Z.land_spec, T, Z.pow2_bits_true by lia; reflexivity). rewrite E, Z.bits_0 in H. discriminate.
  - assert (E : Z.land b (2 ^ k) = 0); [|rewrite E; reflexivity]. apply Z.bits_inj'. intros n Hn. rewrite Z.land_spec, Z.bits_0, Z.pow2_bits_eqb by lia. destruct (Z.eqb_spec k n); [subst; now rewrite T|apply andb_false_r].
Qed.
Lemma get_ok a i : 0 <= i < 8 * zlen a -> BA_GET a i = Ret (b2c (znth false (bits a) i)).
Proof. intros Hi. unfold BA_GET, BA_TARGET_BYTE, BA_BIT_DISTANCE. rewrite (zread_ok 0) by lia. cbn [bind]. rewrite land_bit by lia. now rewrite bit_at. Qed.
Lemma swapped_ok a i : 0 <= i < 8 * zlen a -> BA_GET_SWAPPED a i = Ret (b2c (znth false (bits_swapped a) i)).
Proof.
  intros Hi. unfold BA_GET_SWAPPED. rewrite get_ok by lia. do 2 f_equal. rewrite bit_at by lia. unfold bits_swapped.
  assert (F : forall b, zlen (rev (bin 8 b)) = 8) by (intros; unfold zlen; rewrite rev_length; exact (bin_len 8 b)).
  rewrite (bits_nth (fun b => rev (bin 8 b))) by (auto; lia). replace ((i / 8 * 8 + (8 - 1 - i mod 8)) / 8) with (i / 8) by lia. replace ((i / 8 * 8 + (8 - 1 - i mod 8)) mod 8) with (7 - i mod 8) by lia.
  set (b := znth 0 a (i / 8)). set (k := i mod 8). assert (0 <= k < 8) by (unfold k; lia). rewrite <- (bin_nth 8 b (7 - k)) by lia. clearbody k b. unfold znth. rewrite rev_nth by (pose proof (bin_len 8 b); unfold zlen in *; lia). f_equal. pose proof (bin_len 8 b). unfold zlen in *. lia.
Qed.
Lemma testbit_byte b k : byte b -> 8 <= k -> Z.testbit b k = false.
Proof. unfold byte. intros B K. destruct (Z.eq_dec b 0) as [->|]; [apply Z.bits_0|]. apply Z.bits_above_log2; [lia|]. assert (Z.log2 b < 8) by (apply Z.log2_lt_pow2; lia). lia. Qed.
Lemma u8_bit x k : 0 <= k -> Z.testbit (u8 x) k = (k <? 8) && Z.testbit x k.
Proof. intros K. change (u8 x) with (x mod 2 ^ 8). destruct (Z.ltb_spec k 8); [now rewrite Z.mod_pow2_bits_low by lia|now rewrite Z.mod_pow2_bits_high by lia]. Qed.
Lemma set_gen a i v w (c : bool) : 0 <= i < 8 * zlen a -> bytes a -> znth 0 a (i / 8) = v -> (forall k, 0 <= k < 8 -> Z.testbit w k = if k =? i mod 8 then c else Z.testbit v k) -> byte w ->
  exists a', zwrite a (i / 8) w = Ret a' /\ bytes a' /\ zlen a' = zlen a /\ bits a' = ztake i (bits a) ++ c :: zdrop (i + 1) (bits a).
Proof.
  intros Hi Ba V W Bw. rewrite zwrite_ok by lia. eexists. split; [reflexivity|].
  assert (La : zlen (ztake (i / 8) a ++ w :: zdrop (i / 8 + 1) a) = zlen a) by (apply zlen_upd; lia).
  split; [|split; [exact La|]].
  - apply bytes_app. split; [|apply bytes_cons; split; [exact Bw|]]; [apply Forall_forall; intros x Hx; rewrite <- (ztake_zdrop (i / 8) a) in Ba; apply bytes_app in Ba as [Ba _]; unfold bytes in Ba; rewrite Forall_forall in Ba; auto|].
    rewrite <- (ztake_zdrop (i / 8 + 1) a) in Ba. apply bytes_app in Ba. tauto.
  - assert (Lb : forall x, zlen (bits x) = 8 * zlen x) by (intros; apply bits_len; exact (bin_len 8)).
    apply (znth_ext false).
    + rewrite zlen_upd by (rewrite Lb; lia). rewrite !Lb. now rewrite La.
    + intros j Hj. rewrite Lb, La in Hj. rewrite znth_upd by (rewrite ?Lb; lia). rewrite bit_at by lia. rewrite znth_upd by lia.
      destruct (Z.eqb_spec (j / 8) (i / 8)) as [E|E].
      * rewrite W by lia. destruct (Z.eqb_spec (j mod 8) (i mod 8)), (Z.eqb_spec j i); try lia; [reflexivity|]. rewrite bit_at by lia. now rewrite E, V.
      * destruct (Z.eqb_spec j i); [subst; lia|]. now rewrite bit_at by lia.
Qed.
Lemma set_ok a i c : 0 <= i < 8 * zlen a -> bytes a ->
  exists a', BA_SET a i c = Ret a' /\ bytes a' /\ zlen a' = zlen a /\ bits a' = ztake i (bits a) ++ negb (c =? 0) :: zdrop (i + 1) (bits a).
Proof.
  intros Hi Ba. unfold BA_SET. destruct (c =? 0); cbn [negb]; unfold BA_SET_FALSE, BA_SET_TRUE, BA_TARGET_BYTE, BA_BIT_DISTANCE; rewrite (zread_ok 0) by lia; cbn [bind]; set (v := znth 0 a (i / 8)); (apply (set_gen a i v); [auto|auto|reflexivity| |apply u8_range]);
   intros k Hk; rewrite u8_bit by lia; replace (k <? 8) with true by lia; cbn [andb]; rewrite Z.shiftl_1_l.
  - rewrite Z.land_spec, Z.lnot_spec, Z.pow2_bits_eqb by lia. rewrite (Z.eqb_sym k). destruct (i mod 8 =? k); cbn [negb]; [apply andb_false_r|apply andb_true_r].
  - rewrite Z.lor_spec, Z.pow2_bits_eqb by lia. rewrite (Z.eqb_sym k). destruct (i mod 8 =? k); [apply orb_true_r|apply orb_false_r].
Qed.
Lemma size_ok n s : 0 <= n -> n <= 8 * s <-> BA_SIZE_REQUIRED n <= s.
Proof. intros N. unfold BA_SIZE_REQUIRED. destruct (Z.eqb_spec (n mod 8) 0); lia. Qed.
Lemma bytem_ok m b6 b5 b4 b3 b2 b1 l : bits [BYTEM (b2c m) (b2c b6) (b2c b5) (b2c b4) (b2c b3) (b2c b2) (b2c b1) (b2c l)] = [l; b1; b2; b3; b4; b5; b6; m].
Proof. destruct m, b6, b5, b4, b3, b2, b1, l; reflexivity. Qed.
Lemma bytel_ok m b6 b5 b4 b3 b2 b1 l : bits [BYTEL (b2c l) (b2c b1) (b2c b2) (b2c b3) (b2c b4) (b2c b5) (b2c b6) (b2c m)] = [l; b1; b2; b3; b4; b5; b6; m].
Proof. destruct m, b6, b5, b4, b3, b2, b1, l; reflexivity. Qed.
