(** Proofs about the CRCs. *)
From Verif Require Import Base Bits M_crc32 S_crc32 D_crc32 P_rc4.

(** ---------- the reflected register as a number ---------- *)
Section Step.
Variable rp : Z.  (* reflected generator *)
Hypothesis RPr : 0 <= rp < 2 ^ 32.

Definition step (x : Z) : Z := Z.lxor (Z.shiftr x 1) (if Z.odd x then rp else 0).
Fixpoint steps (n : nat) (x : Z) : Z := match n with O => x | S n => steps n (step x) end.
Lemma steps_plus a : forall b x, steps (a + b) x = steps b (steps a x).
Proof. induction a; intros; cbn; auto. Qed.
Lemma odd_lxor a b : Z.odd (Z.lxor a b) = xorb (Z.odd a) (Z.odd b).
Proof. rewrite <- !Z.bit0_odd. apply Z.lxor_spec. Qed.
Lemma step_lxor a b : step (Z.lxor a b) = Z.lxor (step a) (step b).
Proof.
  unfold step. rewrite odd_lxor, Z.shiftr_lxor. generalize (Z.shiftr a 1) (Z.shiftr b 1). intros x y.
  assert (E : forall p q, Z.lxor (Z.lxor x p) (Z.lxor y q) = Z.lxor (Z.lxor x y) (Z.lxor p q)).
  { intros. rewrite !Z.lxor_assoc. f_equal. rewrite <- !Z.lxor_assoc. f_equal. apply Z.lxor_comm. }
  rewrite E. f_equal. destruct (Z.odd a), (Z.odd b); cbn [xorb]; rewrite ?Z.lxor_0_l, ?Z.lxor_0_r, ?Z.lxor_nilpotent; reflexivity.
Qed.
Lemma steps_lxor n : forall a b, steps n (Z.lxor a b) = Z.lxor (steps n a) (steps n b).
Proof. induction n; intros; cbn; [reflexivity|]. now rewrite step_lxor, IHn. Qed.
Lemma step_double y : step (2 * y) = y.
Proof. unfold step. rewrite Z.odd_mul. cbn [Z.odd andb]. rewrite Z.lxor_0_r. rewrite Z.shiftr_div_pow2 by lia. change (2 ^ 1) with 2. rewrite Z.mul_comm. now apply Z.div_mul. Qed.
Lemma steps_shl n : forall y, steps n (Z.shiftl y (Z.of_nat n)) = y.
Proof.
  induction n as [|n IH]; intros y; [apply Z.shiftl_0_r|]. cbn [steps]. replace (Z.shiftl y (Z.of_nat (S n))) with (2 * Z.shiftl y (Z.of_nat n)).
  - now rewrite step_double, IH.
  - rewrite !Z.shiftl_mul_pow2 by lia. rewrite Nat2Z.inj_succ, Z.pow_succ_r by lia. lia.
Qed.
Lemma lxor_u32 a b : 0 <= a < 2 ^ 32 -> 0 <= b < 2 ^ 32 -> 0 <= Z.lxor a b < 2 ^ 32.
Proof.
  intros A B. assert (P : 0 <= Z.lxor a b) by (apply Z.lxor_nonneg; lia). split; [exact P|].
  destruct (Z.eq_dec (Z.lxor a b) 0) as [->|N]; [lia|]. apply Z.log2_lt_pow2; [lia|]. eapply Z.le_lt_trans; [apply Z.log2_lxor; lia|].
  destruct (Z.eq_dec a 0) as [->|]; [destruct (Z.eq_dec b 0) as [->|]; [now cbn|]|destruct (Z.eq_dec b 0) as [->|]];
    repeat match goal with |- context [Z.max ?x ?y] => destruct (Z.max_spec x y) as [[_ ->]|[_ ->]] end; cbn [Z.log2]; try lia; apply Z.log2_lt_pow2; lia.
Qed.
Lemma shiftr_u32 a n : 0 <= a < 2 ^ 32 -> 0 <= n -> 0 <= Z.shiftr a n < 2 ^ 32.
Proof. intros A N. rewrite Z.shiftr_div_pow2 by auto. assert (0 < 2 ^ n) by (apply Z.pow_pos_nonneg; lia). split; [apply Z.div_pos; lia|]. eapply Z.le_lt_trans; [apply Z.div_le_upper_bound with (q := a); nia|lia]. Qed.
Lemma step_u32 a : 0 <= a < 2 ^ 32 -> 0 <= step a < 2 ^ 32.
Proof. intros A. unfold step. apply lxor_u32; [apply shiftr_u32; lia|]. destruct (Z.odd a); lia. Qed.
Lemma steps_u32 n : forall a, 0 <= a < 2 ^ 32 -> 0 <= steps n a < 2 ^ 32.
Proof. induction n; intros; cbn; auto. apply IHn. now apply step_u32. Qed.
(** low byte and the rest *)
Lemma split8 s : s = Z.lxor (Z.land s 255) (Z.shiftl (Z.shiftr s 8) 8).
Proof.
  apply Z.bits_inj'. intros n Hn. rewrite Z.lxor_spec, Z.land_spec, Z.shiftl_spec by auto. change 255 with (Z.ones 8).
  destruct (Z_lt_le_dec n 8) as [L|L].
  - rewrite Z.ones_spec_low by lia. rewrite (Z.testbit_neg_r _ (n - 8)) by lia. now rewrite andb_true_r, xorb_false_r.
  - rewrite Z.ones_spec_high by lia. rewrite Z.shiftr_spec by lia. rewrite andb_false_r. rewrite xorb_false_l. f_equal. lia.
Qed.
Lemma steps_split k s : steps (8 + k) s = Z.lxor (steps (8 + k) (Z.land s 255)) (steps k (Z.shiftr s 8)).
Proof. rewrite (split8 s) at 1. rewrite steps_lxor. f_equal. rewrite steps_plus. f_equal. apply (steps_shl 8). Qed.
(** feeding bits of v, lowest first *)
Fixpoint feed (n : nat) (s v : Z) : Z := match n with O => s | S n => feed n (step (Z.lxor s (Z.b2z (Z.odd v)))) (Z.shiftr v 1) end.
Lemma split1 v : v = Z.lxor (Z.b2z (Z.odd v)) (2 * Z.shiftr v 1).
Proof.
  assert (E : v = Z.b2z (Z.odd v) + 2 * Z.shiftr v 1) by (rewrite <- Z.div2_spec; rewrite (Z.div2_odd v) at 1; lia).
  rewrite E at 1. symmetry. rewrite <- Z.add_nocarry_lxor; [reflexivity|]. apply Z.bits_inj'. intros n Hn. rewrite Z.land_spec, Z.bits_0.
  destruct (Z.eq_dec n 0) as [->|N0]; [now rewrite Z.testbit_even_0, andb_false_r|]. replace (Z.testbit (Z.b2z (Z.odd v)) n) with false; [reflexivity|].
  destruct (Z.odd v); cbn [Z.b2z]; [|now rewrite Z.bits_0]. symmetry. apply Z.bits_above_log2; cbn; lia.
Qed.
Lemma feed_ok n : forall s v, 0 <= v < 2 ^ Z.of_nat n -> feed n s v = steps n (Z.lxor s v).
Proof.
  induction n as [|n IH]; intros s v Hv; cbn [feed steps].
  - assert (v = 0) by (cbn in Hv; lia). subst v. now rewrite Z.lxor_0_r.
  - rewrite IH.
    + f_equal. rewrite (split1 v) at 3. rewrite <- Z.lxor_assoc, (step_lxor (Z.lxor s (Z.b2z (Z.odd v))) (2 * _)), step_double. reflexivity.
    + rewrite Nat2Z.inj_succ, Z.pow_succ_r in Hv by lia. rewrite <- Z.div2_spec, Z.div2_div. split; [apply Z.div_pos; lia|apply Z.div_lt_upper_bound; lia].
Qed.
(** one byte, four bytes *)
Definition upd (s b : Z) : Z := steps 8 (Z.lxor s b).
Lemma upd_u32 s b : 0 <= s < 2 ^ 32 -> byte b -> 0 <= upd s b < 2 ^ 32.
Proof. intros S B. apply steps_u32. apply lxor_u32; [auto|]. unfold byte in B. lia. Qed.
Lemma land_lxor_byte s b : byte b -> Z.land (Z.lxor s b) 255 = Z.lxor (Z.land s 255) b.
Proof.
  intros B. apply Z.bits_inj'. intros n Hn. rewrite Z.land_spec, !Z.lxor_spec, Z.land_spec. change 255 with (Z.ones 8). destruct (Z_lt_le_dec n 8) as [L|L].
  - rewrite Z.ones_spec_low by lia. now rewrite !andb_true_r.
  - rewrite Z.ones_spec_high by lia. rewrite !andb_false_r. rewrite (Z.bits_above_log2 b); [reflexivity| |]; unfold byte in B; [lia|].
    destruct (Z.eq_dec b 0) as [->|]; [cbn; lia|]. apply Z.lt_le_trans with 8; [apply Z.log2_lt_pow2; lia|lia].
Qed.
Lemma shiftr_lxor_byte s b : byte b -> Z.shiftr (Z.lxor s b) 8 = Z.shiftr s 8.
Proof. intros B. rewrite Z.shiftr_lxor. replace (Z.shiftr b 8) with 0; [apply Z.lxor_0_r|]. rewrite Z.shiftr_div_pow2 by lia. unfold byte in B. symmetry. apply Z.div_small. lia. Qed.
Lemma upd_table s b : byte b -> upd s b = Z.lxor (Z.shiftr s 8) (steps 8 (Z.lxor (Z.land s 255) b)).
Proof.
  intros B. unfold upd. rewrite (steps_split 0). cbn [steps]. rewrite land_lxor_byte, shiftr_lxor_byte by auto. apply Z.lxor_comm.
Qed.
Lemma upd4 s b0 b1 b2 b3 : 0 <= s < 2 ^ 32 -> byte b0 -> byte b1 -> byte b2 -> byte b3 ->
  upd (upd (upd (upd s b0) b1) b2) b3 =
  Z.lxor (Z.lxor (Z.lxor (steps 8 (Z.lxor (Z.land (Z.shiftr s 24) 255) b3)) (steps 16 (Z.lxor (Z.land (Z.shiftr s 16) 255) b2)))
                 (steps 24 (Z.lxor (Z.land (Z.shiftr s 8) 255) b1))) (steps 32 (Z.lxor (Z.land s 255) b0)).
Proof.
  intros S B0 B1 B2 B3. unfold upd. rewrite !steps_lxor. rewrite <- !steps_plus. cbn [plus].
  assert (D : steps 32 s = Z.lxor (steps 32 (Z.land s 255)) (Z.lxor (steps 24 (Z.land (Z.shiftr s 8) 255)) (Z.lxor (steps 16 (Z.land (Z.shiftr s 16) 255)) (steps 8 (Z.land (Z.shiftr s 24) 255))))).
  { rewrite (steps_split 24). f_equal. rewrite (steps_split 16). rewrite Z.shiftr_shiftr by lia. f_equal. change (8 + 8) with 16. change (steps 16 (Z.shiftr s 16)) with (steps (8 + 8) (Z.shiftr s 16)).
    rewrite (steps_split 8). rewrite Z.shiftr_shiftr by lia. f_equal. change (16 + 8) with 24. change 255 with (Z.ones 8). rewrite Z.land_ones by lia. f_equal. symmetry. apply Z.mod_small.
    rewrite Z.shiftr_div_pow2 by lia. split; [apply Z.div_pos; lia|apply Z.div_lt_upper_bound; lia]. }
  rewrite D. generalize (steps 32 (Z.land s 255)) (steps 24 (Z.land (Z.shiftr s 8) 255)) (steps 16 (Z.land (Z.shiftr s 16) 255)) (steps 8 (Z.land (Z.shiftr s 24) 255)) (steps 32 b0) (steps 24 b1) (steps 16 b2) (steps 8 b3).
  clear. intros. apply Z.bits_inj'. intros n _. rewrite !Z.lxor_spec. repeat match goal with |- context [Z.testbit ?x n] => destruct (Z.testbit x n) end; reflexivity.
Qed.
End Step.

Lemma upd_def rp s b : upd rp s b = steps rp 8 (Z.lxor s b).
Proof. reflexivity. Qed.
Global Opaque step steps upd.
(** ---------- the code ---------- *)
Lemma bind_ret {A B} (x : A) (f : A -> out B) : bind (Ret x) f = f x.
Proof. reflexivity. Qed.
Lemma Update_S f ts st buf o len : Update (S f) ts st buf o len =
      (if 4 <=? len then
        let* b3 := zread buf (o + 3) in
        let* t0 := T_at ts 0 (Z.lxor (Z.land (Z.shiftr st 24) 0xff) b3) in
        let* b2 := zread buf (o + 2) in
        let* t1 := T_at ts 1 (Z.lxor (Z.land (Z.shiftr st 16) 0xff) b2) in
        let* b1 := zread buf (o + 1) in
        let* t2 := T_at ts 2 (Z.lxor (Z.land (Z.shiftr st 8) 0xff) b1) in
        let* b0 := zread buf o in
        let* t3 := T_at ts 3 (Z.lxor (Z.land st 0xff) b0) in
        Update f ts (Z.lxor (Z.lxor (Z.lxor t0 t1) t2) t3) buf (o + 4) (len - 4)
      else update_bytes (Z.to_nat len) ts st buf o).
Proof. reflexivity. Qed.
Lemma update_bytes_S n ts st buf o : update_bytes (S n) ts st buf o =
  (let* b := zread buf o in
   let* t := T_at ts 0 (Z.lxor (Z.land st 0xff) b) in
   update_bytes n ts (Z.lxor (Z.shiftr st 8) t) buf (o + 1)).
Proof. reflexivity. Qed.
Lemma fold_cons {A B} (f : A -> B -> A) x l s : fold_left f (x :: l) s = fold_left f l (f s x).
Proof. reflexivity. Qed.
Section Code.
Variables (rp : Z) (ts : list (list Z)).
Hypothesis RPr : 0 <= rp < 2 ^ 32.
Hypothesis TS0 : forall i, 0 <= i < 256 -> T_at ts 0 i = Ret (steps rp 8 i).
Hypothesis TS1 : forall i, 0 <= i < 256 -> T_at ts 1 i = Ret (steps rp 16 i).
Hypothesis TS2 : forall i, 0 <= i < 256 -> T_at ts 2 i = Ret (steps rp 24 i).
Hypothesis TS3 : forall i, 0 <= i < 256 -> T_at ts 3 i = Ret (steps rp 32 i).
Lemma idx s b n : byte b -> 0 <= Z.lxor (Z.land (Z.shiftr s n) 255) b < 256.
Proof. intros B. apply lxor_byte; [|exact B]. change 255 with (Z.ones 8). rewrite Z.land_ones by lia. unfold byte. change 256 with (2 ^ 8). apply Z.mod_pos_bound. lia. Qed.
Lemma bytes_run : forall l p q s, bytes l -> 0 <= s < 2 ^ 32 ->
  update_bytes (length l) ts s (p ++ l ++ q) (zlen p) = Ret (fold_left (upd rp) l s).
Proof.
  induction l as [|b l IH]; intros p q s B Hs; [reflexivity|]. apply bytes_cons in B as [Bb B]. change (length (b :: l)) with (S (length l)). rewrite update_bytes_S. rewrite fold_cons. cbn [app].
  rewrite zread_at by auto. rewrite bind_ret. pose proof (idx s b 0 Bb) as I. rewrite Z.shiftr_0_r in I. change 0xff with 255. rewrite (TS0 _ I). rewrite bind_ret.
  rewrite <- upd_table by auto. replace (zlen p + 1) with (zlen (p ++ [b])) by (zl; lia). replace (p ++ b :: l ++ q) with ((p ++ [b]) ++ l ++ q) by (now rewrite <- app_assoc).
  apply IH; auto. now apply upd_u32.
Qed.
Lemma update_ok : forall f l p q s, (length l <= f)%nat -> bytes l -> 0 <= s < 2 ^ 32 ->
  Update (S f) ts s (p ++ l ++ q) (zlen p) (zlen l) = Ret (fold_left (upd rp) l s).
Proof.
  induction f as [|f IH]; intros l p q s Lf B Hs.
  - destruct l; [|cbn in Lf; lia]. reflexivity.
  - rewrite Update_S. destruct (4 <=? zlen l) eqn:L4.
    + destruct l as [|b0 [|b1 [|b2 [|b3 l]]]]; try discriminate L4.
      repeat (apply bytes_cons in B; destruct B as [? B]).
      assert (R : forall u v r k, b0 :: b1 :: b2 :: b3 :: l = u ++ v :: r -> k = zlen u -> zread (p ++ (b0 :: b1 :: b2 :: b3 :: l) ++ q) (zlen p + k) = Ret v).
      { intros u v r k E ->. rewrite E. rewrite <- app_assoc. cbn [app]. rewrite app_assoc. apply zread_at. zl. lia. }
      rewrite (R [b0; b1; b2] b3 l 3) by reflexivity. rewrite bind_ret. change 0xff with 255.
      rewrite (TS0 _ (idx s b3 24 ltac:(auto))). rewrite bind_ret.
      rewrite (R [b0; b1] b2 (b3 :: l) 2) by reflexivity. rewrite bind_ret. rewrite (TS1 _ (idx s b2 16 ltac:(auto))). rewrite bind_ret.
      rewrite (R [b0] b1 (b2 :: b3 :: l) 1) by reflexivity. rewrite bind_ret. rewrite (TS2 _ (idx s b1 8 ltac:(auto))). rewrite bind_ret.
      pose proof (R [] b0 (b1 :: b2 :: b3 :: l) 0 eq_refl eq_refl) as R0. rewrite Z.add_0_r in R0. rewrite R0. rewrite bind_ret.
      pose proof (idx s b0 0 ltac:(auto)) as I. rewrite Z.shiftr_0_r in I. rewrite (TS3 _ I). rewrite bind_ret.
      rewrite !fold_cons. rewrite <- upd4 by auto.
      replace (zlen p + 4) with (zlen (p ++ [b0; b1; b2; b3])) by (zl; lia). replace (zlen (b0 :: b1 :: b2 :: b3 :: l) - 4) with (zlen l) by (zl; lia).
      replace (p ++ (b0 :: b1 :: b2 :: b3 :: l) ++ q) with ((p ++ [b0; b1; b2; b3]) ++ l ++ q) by (now rewrite <- app_assoc).
      cbn [length] in Lf. apply IH; [lia|auto|]. repeat (apply upd_u32; auto).
    + replace (Z.to_nat (zlen l)) with (length l) by (unfold zlen; lia). now apply bytes_run.
Qed.
Lemma updates_ok : forall calls s, Forall (fun c => bytes (chunk c)) calls -> 0 <= s < 2 ^ 32 ->
  updates ts s calls = Ret (fold_left (upd rp) (concat (map chunk calls)) s).
Proof.
  induction calls as [|[[p l] q] calls IH]; intros s F Hs; [reflexivity|]. apply Forall_cons_iff in F as [B F]. cbn [chunk fst snd] in B. cbn [updates map concat].
  rewrite update_ok by auto. rewrite bind_ret. rewrite fold_left_app. apply IH; [exact F|]. clear IH F. revert s Hs. induction l as [|b l IH]; intros s Hs; [exact Hs|]. apply bytes_cons in B as [Bb B].
  cbn [chunk fst snd]. rewrite fold_cons. apply IH; auto. now apply upd_u32.
Qed.
End Code.

(** ---------- numbers and bit lists ---------- *)
Definition bitsn (n : nat) (v : Z) : list bool := map (fun k => Z.testbit v (Z.of_nat k)) (seq 0 n).
Lemma bitsn_S n v : bitsn (S n) v = Z.odd v :: bitsn n (Z.shiftr v 1).
Proof.
  unfold bitsn. cbn [seq map]. f_equal. rewrite <- seq_shift, map_map. apply map_ext. intros k. rewrite Z.shiftr_spec by lia. f_equal. lia.
Qed.
Lemma xor_map (f g : nat -> bool) l : xor_bits (map f l) (map g l) = map (fun k => xorb (f k) (g k)) l.
Proof. induction l; cbn; congruence. Qed.
Lemma testbit_small s n : 0 <= s < 2 ^ 32 -> 32 <= n -> Z.testbit s n = false.
Proof.
  intros S N. destruct (Z.eq_dec s 0) as [->|]; [apply Z.bits_0|]. apply Z.bits_above_log2; [lia|]. assert (Z.log2 s < 32) by (apply Z.log2_lt_pow2; lia). lia.
Qed.
Lemma testbit_b2z_high m n : 0 < n -> Z.testbit (Z.b2z m) n = false.
Proof. intros N. destruct m; cbn [Z.b2z]; [apply Z.bits_above_log2; cbn; lia|apply Z.bits_0]. Qed.
Lemma reg_step_ok g rp s m : gen_bits g = bitsn 32 rp -> 0 <= s < 2 ^ 32 -> reg_step (gen_bits g) (bitsn 32 s) m = bitsn 32 (step rp (Z.lxor s (Z.b2z m))).
Proof.
  intros G S. rewrite G. assert (E : bitsn 32 s = Z.odd s :: bitsn 31 (Z.shiftr s 1)) by apply bitsn_S. rewrite E at 1. cbn [reg_step].
  assert (E2 : bitsn 31 (Z.shiftr s 1) ++ [false] = map (fun k => Z.testbit (Z.lxor s (Z.b2z m)) (Z.of_nat k + 1)) (seq 0 32)).
  { unfold bitsn. change (seq 0 32) with (seq 0 31 ++ [31%nat]). rewrite map_app. f_equal.
    - apply map_ext. intros k. rewrite Z.lxor_spec, Z.shiftr_spec, testbit_b2z_high by lia. now rewrite xorb_false_r.
    - cbn [map]. rewrite Z.lxor_spec, testbit_b2z_high by lia. rewrite testbit_small by (auto; lia). reflexivity. }
  rewrite E2. assert (O : Z.odd (Z.lxor s (Z.b2z m)) = xorb (Z.odd s) m) by (rewrite odd_lxor; f_equal; now destruct m).
  unfold bitsn. destruct (xorb (Z.odd s) m) eqn:X.
  - rewrite xor_map. apply map_ext. intros k. Transparent step. unfold step. Opaque step. rewrite O, (Z.lxor_spec (Z.shiftr _ _)), Z.shiftr_spec by lia. reflexivity.
  - apply map_ext. intros k. Transparent step. unfold step. Opaque step. rewrite O, Z.lxor_0_r, Z.shiftr_spec by lia. reflexivity.
Qed.
Section Reg.
Variables (g rp : Z).
Hypothesis G : gen_bits g = bitsn 32 rp.
Hypothesis RPr : 0 <= rp < 2 ^ 32.
Lemma feed_bits n : forall s v, 0 <= s < 2 ^ 32 -> fold_left (reg_step (gen_bits g)) (bitsn n v) (bitsn 32 s) = bitsn 32 (feed rp n s v).
Proof.
  induction n as [|n IH]; intros s v S; [reflexivity|]. rewrite bitsn_S, fold_cons. rewrite (reg_step_ok g rp) by auto. cbn [feed]. apply IH.
  apply step_u32; [auto|]. apply lxor_u32; [auto|]. destruct (Z.odd v); cbn; lia.
Qed.
Lemma wire_ok : forall l s, bytes l -> 0 <= s < 2 ^ 32 -> fold_left (reg_step (gen_bits g)) (wire_bits l) (bitsn 32 s) = bitsn 32 (fold_left (upd rp) l s) /\ 0 <= fold_left (upd rp) l s < 2 ^ 32.
Proof.
  induction l as [|b l IH]; intros s B S; [split; [reflexivity|exact S]|]. apply bytes_cons in B as [Bb B]. unfold wire_bits. cbn [map concat]. rewrite fold_left_app, fold_cons.
  change (byte_bits b) with (bitsn 8 b). rewrite feed_bits by auto. rewrite feed_ok by (exact RPr || exact Bb). rewrite <- upd_def. apply IH; auto. now apply upd_u32.
Qed.
End Reg.
Lemma byte_bits_at s n : 0 <= n -> byte_bits (Z.land (Z.shiftr s n) 255) = map (fun k => Z.testbit s (n + Z.of_nat k)) (seq 0 8).
Proof.
  intros N. unfold byte_bits. apply map_ext_in. intros k I. apply in_seq in I. rewrite Z.land_spec, Z.shiftr_spec by lia. change 255 with (Z.ones 8). rewrite Z.ones_spec_low by lia. rewrite andb_true_r. f_equal. lia.
Qed.
Lemma final_ok s u v : 0 <= s < 2 ^ 32 -> zlen u = 4 -> exists c s', Final (u ++ v) s = Ret (s', c ++ v) /\ zlen c = 4 /\ bytes c /\ wire_bits c = map negb (bitsn 32 s).
Proof.
  intros S L. destruct u as [|u0 [|u1 [|u2 [|u3 [|]]]]]; try discriminate L; [|exfalso; revert L; zl; zpos; lia].
  unfold Final. set (w := Z.lxor s 0xffffffff). cbn [app]. change 0xff with 255.
  exists [Z.land w 255; Z.land (Z.shiftr w 8) 255; Z.land (Z.shiftr w 16) 255; Z.land (Z.shiftr w 24) 255], w. split; [|split; [|split]].
  - change (u0 :: u1 :: u2 :: u3 :: v) with ([] ++ u0 :: u1 :: u2 :: u3 :: v). rewrite zwrite_at by reflexivity. rewrite bind_ret. cbn [app].
    change (Z.land w 255 :: u1 :: u2 :: u3 :: v) with ([Z.land w 255] ++ u1 :: u2 :: u3 :: v). rewrite zwrite_at by reflexivity. rewrite bind_ret. cbn [app].
    match goal with |- context [?x :: ?y :: u2 :: u3 :: v] => change (x :: y :: u2 :: u3 :: v) with ([x; y] ++ u2 :: u3 :: v) end. rewrite zwrite_at by reflexivity. rewrite bind_ret. cbn [app].
    match goal with |- context [?x :: ?y :: ?z :: u3 :: v] => change (x :: y :: z :: u3 :: v) with ([x; y; z] ++ u3 :: v) end. rewrite zwrite_at by reflexivity. rewrite bind_ret. reflexivity.
  - reflexivity.
  - repeat (apply bytes_cons; split; [change 255 with (Z.ones 8); rewrite Z.land_ones by lia; unfold byte; change 256 with (2 ^ 8); apply Z.mod_pos_bound; lia|]). constructor.
  - unfold wire_bits. cbn [map concat]. replace (Z.land w 255) with (Z.land (Z.shiftr w 0) 255) by (now rewrite Z.shiftr_0_r). rewrite !byte_bits_at by lia.
    transitivity (bitsn 32 w); [unfold bitsn; cbn [seq map app Z.of_nat Pos.of_succ_nat Pos.succ Z.add Pos.add]; reflexivity|].
    unfold bitsn. rewrite map_map. apply map_ext_in. intros k I. apply in_seq in I. unfold w. rewrite Z.lxor_spec. change 0xffffffff with (Z.ones 32). rewrite Z.ones_spec_low by lia. apply xorb_true_r.
Qed.

(** ---------- the tables ---------- *)
Definition check_table (poly rp : Z) : bool :=
  match InitTables poly with
  | Ret ts => forallb (fun j => forallb (fun i => match T_at ts (Z.of_nat j) (Z.of_nat i) with Ret v => v =? steps rp (8 * (j + 1)) (Z.of_nat i) | _ => false end) (seq 0 256)) (seq 0 4)
  | _ => false
  end.
Definition RP32 : Z := 0xedb88320.
Definition RP32C : Z := 0x82f63b78.
Transparent steps step.
Lemma check32 : check_table POLY32 RP32 = true.
Proof. vm_compute. reflexivity. Qed.
Lemma check32c : check_table POLY32C RP32C = true.
Proof. vm_compute. reflexivity. Qed.
Opaque steps step.
Lemma check_ok poly rp : check_table poly rp = true -> exists ts, InitTables poly = Ret ts /\
  forall j i, (j < 4)%nat -> 0 <= i < 256 -> T_at ts (Z.of_nat j) i = Ret (steps rp (8 * (j + 1)) i).
Proof.
  unfold check_table. destruct (InitTables poly) as [ts| |]; try discriminate. intros H. exists ts. split; [reflexivity|]. intros j i Hj Hi.
  rewrite forallb_forall in H. specialize (H j ltac:(apply in_seq; lia)). cbv beta in H. rewrite forallb_forall in H. specialize (H (Z.to_nat i) ltac:(apply in_seq; lia)). cbv beta in H.
  rewrite Z2Nat.id in H by lia. destruct (T_at ts (Z.of_nat j) i) as [v| |]; try discriminate. apply Z.eqb_eq in H. now rewrite H.
Qed.
Lemma run_ok poly rp calls u v : check_table poly rp = true -> gen_bits poly = bitsn 32 rp -> 0 <= rp < 2 ^ 32 ->
  Forall (fun c => bytes (chunk c)) calls -> zlen u = 4 ->
  exists c, crc_run poly (u ++ v) calls = Ret (c ++ v) /\ zlen c = 4 /\ bytes c /\ wire_bits c = crc poly (concat (map chunk calls)).
Proof.
  intros C G R F L. destruct (check_ok _ _ C) as (ts & E & T). unfold crc_run. rewrite E, bind_ret.
  rewrite (updates_ok rp ts R (fun i => T 0%nat i ltac:(lia)) (fun i => T 1%nat i ltac:(lia)) (fun i => T 2%nat i ltac:(lia)) (fun i => T 3%nat i ltac:(lia))) by (auto; unfold Init; lia).
  rewrite bind_ret. assert (B : bytes (concat (map chunk calls))).
  { clear -F. induction F; cbn [map concat]; [constructor|]. now apply bytes_app. }
  destruct (wire_ok poly rp G R (concat (map chunk calls)) Init B ltac:(unfold Init; lia)) as [W Hs].
  destruct (final_ok _ u v Hs L) as (c & s' & E2 & Lc & Bc & Wc). rewrite E2, bind_ret. exists c. split; [reflexivity|]. split; [exact Lc|]. split; [exact Bc|].
  rewrite Wc, <- W. reflexivity.
Qed.
Lemma gen32 : gen_bits POLY32 = bitsn 32 RP32 /\ 0 <= RP32 < 2 ^ 32.
Proof. split; [vm_compute; reflexivity|unfold RP32; lia]. Qed.
Lemma gen32c : gen_bits POLY32C = bitsn 32 RP32C /\ 0 <= RP32C < 2 ^ 32.
Proof. split; [vm_compute; reflexivity|unfold RP32C; lia]. Qed.
Global Opaque check_table.
