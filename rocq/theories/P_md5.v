(** Proofs about md5. *)
From Verif Require Import Base Bits M_hex M_md5 S_hash S_md5 P_crc32 P_hash.

Definition w32 (x : Z) : Prop := 0 <= x < 2 ^ 32.
Lemma u32_eq x : u32 x = x mod 2 ^ 32.
Proof. reflexivity. Qed.
Lemma u32_w x : w32 (u32 x).
Proof. apply Z.mod_pos_bound. lia. Qed.
Lemma hi32 x n : w32 x -> 32 <= n -> Z.testbit x n = false.
Proof. intros. now apply testbit_small. Qed.
Lemma not32_bit x n : w32 x -> 0 <= n -> Z.testbit (not32 x) n = (n <? 32) && negb (Z.testbit x n).
Proof.
  intros W N. unfold not32. replace (2 ^ 32 - 1 - x) with (Z.ldiff (Z.ones 32) x).
  - rewrite Z.ldiff_spec. destruct (Z.ltb_spec n 32) as [L|L]; [rewrite Z.ones_spec_low by lia|rewrite Z.ones_spec_high by lia]; reflexivity.
  - symmetry. rewrite Z.ones_equiv. change (Z.pred (2 ^ 32)) with (2 ^ 32 - 1). apply Z.sub_nocarry_ldiff. apply Z.bits_inj'. intros k Hk. rewrite Z.ldiff_spec, Z.bits_0.
    change (2 ^ 32 - 1) with (Z.ones 32). destruct (Z_lt_le_dec k 32); [rewrite Z.ones_spec_low by lia; apply andb_false_r|rewrite hi32 by auto; reflexivity].
Qed.
Ltac bitwise := apply Z.bits_inj'; let n := fresh "n" in let Hn := fresh "Hn" in intros n Hn; repeat first [rewrite Z.lxor_spec|rewrite Z.land_spec|rewrite Z.lor_spec|rewrite not32_bit by auto].
Lemma F_ok b c d : w32 b -> w32 c -> w32 d -> F b c d = md5_F b c d.
Proof.
  intros B C D. unfold F, md5_F. bitwise. destruct (Z.ltb_spec n 32); [|rewrite !(hi32 _ n) by auto; reflexivity].
  destruct (Z.testbit b n), (Z.testbit c n), (Z.testbit d n); reflexivity.
Qed.
Lemma G_ok b c d : w32 b -> w32 c -> w32 d -> G b c d = md5_G b c d.
Proof.
  intros B C D. unfold G, md5_G. bitwise. destruct (Z.ltb_spec n 32); [|rewrite !(hi32 _ n) by auto; reflexivity].
  destruct (Z.testbit b n), (Z.testbit c n), (Z.testbit d n); reflexivity.
Qed.
Lemma I_ok b c d : w32 b -> w32 c -> w32 d -> I b c d = md5_I b c d.
Proof.
  intros B C D. unfold I, md5_I. bitwise. change 0xffffffff with (Z.ones 32).
  destruct (Z.ltb_spec n 32); [rewrite Z.ones_spec_low by lia|rewrite Z.ones_spec_high by lia; rewrite !(hi32 _ n) by auto; reflexivity].
  destruct (Z.testbit b n), (Z.testbit c n), (Z.testbit d n); reflexivity.
Qed.
Lemma ROTL_ok x s : w32 x -> 0 < s < 32 -> ROTL x s = rotl x s.
Proof.
  intros W S. unfold ROTL, rotl, w32 in *. rewrite u32_eq, Z.shiftl_mul_pow2, Z.shiftr_div_pow2 by lia.
  assert (E : (x * 2 ^ s) mod 2 ^ 32 = (x mod 2 ^ (32 - s)) * 2 ^ s).
  { replace (2 ^ 32) with (2 ^ (32 - s) * 2 ^ s) by (rewrite <- Z.pow_add_r by lia; f_equal; lia). apply Z.mul_mod_distr_r; apply Z.pow_nonzero; lia. }
  rewrite E. apply lor_add; [lia|]. split; [apply Z.div_pos; [lia|apply Z.pow_pos_nonneg; lia]|]. apply Z.div_lt_upper_bound; [apply Z.pow_pos_nonneg; lia|].
  rewrite <- Z.pow_add_r by lia. replace (32 - s + s) with 32 by lia. lia.
Qed.
Definition w4 (v : word4) : Prop := let '(a, b, c, d) := v in w32 a /\ w32 b /\ w32 c /\ w32 d.
Lemma op_w4 f x t s v : w4 v -> w4 (md5_op f x t s v).
Proof. destruct v as [[[a b] c] d]. intros (A & B & C & D). cbn. unfold add32. repeat split; try apply C; try apply D; try apply B; apply u32_w || (apply Z.mod_pos_bound; lia). Qed.
Lemma sum_ok a f x k : u32 (a + f + x + k) = add32 (add32 (add32 a f) x) k.
Proof. rewrite u32_eq. unfold add32. rewrite Z.add_mod_idemp_l by lia. rewrite <- (Z.add_assoc ((a + f) mod _) x k), Z.add_mod_idemp_l by lia. f_equal. lia. Qed.
Lemma op_ok (f g : Z -> Z -> Z -> Z) a b c d x k s : (forall x y z, w32 x -> w32 y -> w32 z -> f x y z = g x y z) -> 0 < s < 32 -> w4 (a, b, c, d) ->
  md5_op g x k s (a, b, c, d) = (d, u32 (b + ROTL (u32 (a + f b c d + x + k)) s), b, c).
Proof. intros FG S (A & B & C & D). unfold md5_op. rewrite FG by auto. rewrite ROTL_ok by (auto; apply u32_w). rewrite sum_ok. reflexivity. Qed.
Lemma quad_gen f g idx s0 s1 s2 s3 m i v j0 j1 j2 j3 x0 x1 x2 x3 k0 k1 k2 k3 :
  (forall x y z, w32 x -> w32 y -> w32 z -> f x y z = g x y z) -> 0 < s0 < 32 -> 0 < s1 < 32 -> 0 < s2 < 32 -> 0 < s3 < 32 -> w4 v ->
  idx i = Ret j0 -> idx (i + 1) = Ret j1 -> idx (i + 2) = Ret j2 -> idx (i + 3) = Ret j3 ->
  zread m j0 = Ret x0 -> zread m j1 = Ret x1 -> zread m j2 = Ret x2 -> zread m j3 = Ret x3 ->
  zread K i = Ret k0 -> zread K (i + 1) = Ret k1 -> zread K (i + 2) = Ret k2 -> zread K (i + 3) = Ret k3 ->
  quad f idx s0 s1 s2 s3 m i v = Ret (md5_op g x3 k3 s3 (md5_op g x2 k2 s2 (md5_op g x1 k1 s1 (md5_op g x0 k0 s0 v)))).
Proof.
  intros FG S0 S1 S2 S3 W I0 I1 I2 I3 X0 X1 X2 X3 K0 K1 K2 K3. destruct v as [[[a b] c] d]. unfold quad.
  pose proof (op_w4 g x0 k0 s0 _ W) as W0. rewrite (op_ok f g a b c d x0 k0 s0) in * by auto.
  rewrite I0, bind_ret, X0, bind_ret, K0, bind_ret. set (a1 := u32 (b + _)) in *.
  pose proof (op_w4 g x1 k1 s1 _ W0) as W1. rewrite (op_ok f g d a1 b c x1 k1 s1) in * by auto.
  rewrite I1, bind_ret, X1, bind_ret, K1, bind_ret. set (d1 := u32 (a1 + _)) in *.
  pose proof (op_w4 g x2 k2 s2 _ W1) as W2. rewrite (op_ok f g c d1 a1 b x2 k2 s2) in * by auto.
  rewrite I2, bind_ret, X2, bind_ret, K2, bind_ret. set (c1 := u32 (d1 + _)) in *.
  pose proof (op_w4 g x3 k3 s3 _ W2) as W3. rewrite (op_ok f g b c1 d1 a1 x3 k3 s3) in * by auto.
  rewrite I3, bind_ret, X3, bind_ret, K3, bind_ret. reflexivity.
Qed.
Lemma K_ok : K = map md5_T (map Z.of_nat (seq 0 64)).
Proof. vm_compute. reflexivity. Qed.
Lemma MP_ok : MP = map md5_k (map Z.of_nat (seq 16 48)).
Proof. vm_compute. reflexivity. Qed.
Lemma zread_map_seq (f : Z -> Z) a n i : 0 <= i < Z.of_nat n -> zread (map f (map Z.of_nat (seq a n))) i = Ret (f (Z.of_nat a + i)).
Proof.
  intros H. rewrite (zread_ok 0) by (rewrite !zlen_map; unfold zlen; rewrite seq_length; lia). f_equal.
  unfold znth. rewrite (nth_indep _ 0 (f (Z.of_nat 0))) by (rewrite !map_length, seq_length; lia). rewrite map_nth, map_nth. f_equal. rewrite seq_nth by lia. lia.
Qed.
Lemma K_read i : 0 <= i < 64 -> zread K i = Ret (md5_T i).
Proof. intros H. rewrite K_ok, zread_map_seq by lia. reflexivity. Qed.
Lemma MP_read i : 16 <= i < 64 -> zread MP (i - 16) = Ret (md5_k i).
Proof. intros H. rewrite MP_ok, zread_map_seq by lia. do 2 f_equal. lia. Qed.
Lemma k_range i : 0 <= i < 64 -> 0 <= md5_k i < 16.
Proof.
  intros H. unfold md5_k. destruct (Z.ltb_spec i 16); [lia|]. destruct (i <? 32); [apply Z.mod_pos_bound; lia|]. destruct (i <? 48); apply Z.mod_pos_bound; lia.
Qed.
Opaque md5_T md5_op.
Definition good (g : Z -> Z -> Z -> Z) (s0 s1 s2 s3 i : Z) : Prop :=
  (md5_fn i = g /\ md5_fn (i + 1) = g /\ md5_fn (i + 2) = g /\ md5_fn (i + 3) = g) /\
  (md5_s i = s0 /\ md5_s (i + 1) = s1 /\ md5_s (i + 2) = s2 /\ md5_s (i + 3) = s3).
Lemma quads_S n f idx s0 s1 s2 s3 m i v : quads (S n) f idx s0 s1 s2 s3 m i v = (let* v := quad f idx s0 s1 s2 s3 m i v in quads n f idx s0 s1 s2 s3 m (i + 4) v).
Proof. reflexivity. Qed.
Lemma step_w4 m v i : w4 v -> w4 (md5_step m v i).
Proof. apply op_w4. Qed.
Lemma quads_ok f g idx s0 s1 s2 s3 m : zlen m = 16 ->
  (forall x y z, w32 x -> w32 y -> w32 z -> f x y z = g x y z) -> 0 < s0 < 32 -> 0 < s1 < 32 -> 0 < s2 < 32 -> 0 < s3 < 32 ->
  forall n a v, w4 v -> (a + 4 * n <= 64)%nat -> (forall k, (k < n)%nat -> good g s0 s1 s2 s3 (Z.of_nat a + 4 * Z.of_nat k)) ->
  (forall j, Z.of_nat a <= j < Z.of_nat a + 4 * Z.of_nat n -> idx j = Ret (md5_k j)) ->
  quads n f idx s0 s1 s2 s3 m (Z.of_nat a) v = Ret (fold_left (md5_step m) (map Z.of_nat (seq a (4 * n))) v) /\
  w4 (fold_left (md5_step m) (map Z.of_nat (seq a (4 * n))) v).
Proof.
  intros Lm FG S0 S1 S2 S3. induction n as [|n IH]; intros a v W Ha Gd Ix; [split; [reflexivity|exact W]|].
  replace (4 * S n)%nat with (S (S (S (S (4 * n))))) by lia. cbn [seq map]. rewrite !fold_cons, quads_S.
  destruct (Gd 0%nat ltac:(lia)) as [(G0 & G1 & G2 & G3) (T0 & T1 & T2 & T3)]. rewrite Z.mul_0_r, Z.add_0_r in *.
  replace (Z.of_nat (S a)) with (Z.of_nat a + 1) by lia. replace (Z.of_nat (S (S a))) with (Z.of_nat a + 2) by lia. replace (Z.of_nat (S (S (S a)))) with (Z.of_nat a + 3) by lia.
  assert (RM : forall j, 0 <= j < 64 -> zread m (md5_k j) = Ret (znth 0 m (md5_k j))) by (intros j Hj; apply zread_ok; pose proof (k_range j Hj); lia).
  rewrite (quad_gen f g idx s0 s1 s2 s3 m (Z.of_nat a) v _ _ _ _ _ _ _ _ _ _ _ _ FG S0 S1 S2 S3 W (Ix (Z.of_nat a) ltac:(lia)) (Ix (Z.of_nat a + 1) ltac:(lia)) (Ix (Z.of_nat a + 2) ltac:(lia)) (Ix (Z.of_nat a + 3) ltac:(lia))
    (RM (Z.of_nat a) ltac:(lia)) (RM (Z.of_nat a + 1) ltac:(lia)) (RM (Z.of_nat a + 2) ltac:(lia)) (RM (Z.of_nat a + 3) ltac:(lia)) (K_read (Z.of_nat a) ltac:(lia)) (K_read (Z.of_nat a + 1) ltac:(lia)) (K_read (Z.of_nat a + 2) ltac:(lia)) (K_read (Z.of_nat a + 3) ltac:(lia))).
  rewrite bind_ret.
  assert (E : forall v j s, md5_fn j = g -> md5_s j = s -> md5_op g (znth 0 m (md5_k j)) (md5_T j) s v = md5_step m v j) by (intros v' j s <- <-; reflexivity).
  rewrite (E _ _ _ G0 T0), (E _ _ _ G1 T1), (E _ _ _ G2 T2), (E _ _ _ G3 T3).
  replace (Z.of_nat a + 4) with (Z.of_nat (S (S (S (S a))))) by lia. apply IH.
  - now repeat apply step_w4.
  - lia.
  - intros k Hk. specialize (Gd (S k) ltac:(lia)). replace (Z.of_nat (S (S (S (S a)))) + 4 * Z.of_nat k) with (Z.of_nat a + 4 * Z.of_nat (S k)) by lia. exact Gd.
  - intros j Hj. apply Ix. lia.
Qed.
Lemma dec_ok p b0 b1 b2 b3 q : byte b0 -> byte b1 -> byte b2 -> byte b3 -> dec32le (p ++ b0 :: b1 :: b2 :: b3 :: q) (zlen p) = Ret (le_val [b0; b1; b2; b3]).
Proof.
  intros B0 B1 B2 B3. unfold dec32le. rewrite zread_at by auto. rewrite bind_ret.
  assert (R : forall u v r k, b0 :: b1 :: b2 :: b3 :: q = u ++ v :: r -> k = zlen u -> zread (p ++ b0 :: b1 :: b2 :: b3 :: q) (zlen p + k) = Ret v).
  { intros u v r k E ->. rewrite E, app_assoc. apply zread_at. zl. lia. }
  rewrite (R [b0] b1 (b2 :: b3 :: q) 1) by reflexivity. rewrite bind_ret. rewrite (R [b0; b1] b2 (b3 :: q) 2) by reflexivity. rewrite bind_ret.
  rewrite (R [b0; b1; b2] b3 q 3) by reflexivity. rewrite bind_ret. f_equal. unfold byte in *. rewrite !Z.shiftl_mul_pow2 by lia. rewrite !u32_id by lia.
  rewrite (Z.lor_comm b0), (lor_add b1 8 b0) by lia. rewrite (Z.lor_comm _ (b2 * _)), (lor_add b2 16) by lia. rewrite (Z.lor_comm _ (b3 * _)), (lor_add b3 24) by lia. cbn [le_val]. lia.
Qed.
Lemma range_dec_ok : forall n p l q, zlen l = 4 * Z.of_nat n -> bytes l -> range_dec32le n (p ++ l ++ q) (zlen p) = Ret (map le_val (blocks 4 n l)).
Proof.
  induction n as [|n IH]; intros p l q L B; [reflexivity|]. destruct l as [|b0 [|b1 [|b2 [|b3 l]]]]; try (exfalso; revert L; zl; cbn [zlen length Z.of_nat]; lia).
  repeat (apply bytes_cons in B; destruct B as [? B]). cbn [range_dec32le app]. rewrite dec_ok by auto. rewrite bind_ret.
  replace (zlen p + 4) with (zlen (p ++ [b0; b1; b2; b3])) by (zl; lia). replace (p ++ b0 :: b1 :: b2 :: b3 :: l ++ q) with ((p ++ [b0; b1; b2; b3]) ++ l ++ q) by (now rewrite <- app_assoc).
  rewrite IH; [|revert L; zl; lia|auto]. rewrite bind_ret. cbn [blocks]. change (b0 :: b1 :: b2 :: b3 :: l) with ([b0; b1; b2; b3] ++ l). now rewrite (ztake_app_exact [b0; b1; b2; b3] l : ztake 4 _ = _), (zdrop_app_exact [b0; b1; b2; b3] l : zdrop 4 _ = _).
Qed.
Lemma round_ok p l q v : zlen l = 64 -> bytes l -> w4 v -> md5_round (p ++ l ++ q) (zlen p) v = Ret (md5_compress v l) /\ w4 (md5_compress v l).
Proof.
  intros L B W. unfold md5_round, md5_compress. rewrite range_dec_ok by (auto; lia). rewrite bind_ret. set (m := map le_val _).
  assert (Lm : zlen m = 16) by (unfold m; rewrite zlen_map; unfold zlen; now rewrite blocks_len).
  assert (Sq : map Z.of_nat (seq 0 64) = map Z.of_nat (seq 0 16) ++ map Z.of_nat (seq 16 16) ++ map Z.of_nat (seq 32 16) ++ map Z.of_nat (seq 48 16)) by reflexivity.
  rewrite Sq. rewrite !fold_left_app.
  destruct (quads_ok F md5_F (fun j => Ret j) 7 12 17 22 m Lm F_ok ltac:(lia) ltac:(lia) ltac:(lia) ltac:(lia) 4 0 v W ltac:(lia)) as [E1 W1].
  { intros k Hk. destruct k as [|[|[|[|]]]]; [..|lia]; repeat split. }
  { intros j Hj. unfold md5_k. replace (j <? 16) with true by lia. reflexivity. }
  change (Z.of_nat 0) with 0 in E1. rewrite E1, bind_ret. change (4 * 4)%nat with 16%nat in *. set (v1 := fold_left _ _ v) in *.
  destruct (quads_ok G md5_G (fun j => zread MP (j - 16)) 5 9 14 20 m Lm G_ok ltac:(lia) ltac:(lia) ltac:(lia) ltac:(lia) 4 16 v1 W1 ltac:(lia)) as [E2 W2].
  { intros k Hk. destruct k as [|[|[|[|]]]]; [..|lia]; repeat split. }
  { intros j Hj. apply MP_read. lia. }
  change (Z.of_nat 16) with 16 in E2. rewrite E2, bind_ret. change (4 * 4)%nat with 16%nat in *. set (v2 := fold_left _ _ v1) in *.
  destruct (quads_ok H md5_H (fun j => zread MP (j - 16)) 4 11 16 23 m Lm ltac:(reflexivity) ltac:(lia) ltac:(lia) ltac:(lia) ltac:(lia) 4 32 v2 W2 ltac:(lia)) as [E3 W3].
  { intros k Hk. destruct k as [|[|[|[|]]]]; [..|lia]; repeat split. }
  { intros j Hj. apply MP_read. lia. }
  change (Z.of_nat 32) with 32 in E3. rewrite E3, bind_ret. change (4 * 4)%nat with 16%nat in *. set (v3 := fold_left _ _ v2) in *.
  destruct (quads_ok I md5_I (fun j => zread MP (j - 16)) 6 10 15 21 m Lm I_ok ltac:(lia) ltac:(lia) ltac:(lia) ltac:(lia) 4 48 v3 W3 ltac:(lia)) as [E4 W4].
  { intros k Hk. destruct k as [|[|[|[|]]]]; [..|lia]; repeat split. }
  { intros j Hj. apply MP_read. lia. }
  change (Z.of_nat 48) with 48 in E4. rewrite E4, bind_ret. change (4 * 4)%nat with 16%nat in *. set (v4 := fold_left _ _ v3) in *.
  destruct v as [[[a b] c] d]. destruct v4 as [[[a4 b4] c4] d4]. split; [reflexivity|]. repeat split; try apply u32_w; apply Z.mod_pos_bound; lia.
Qed.
Opaque md5_compress md5_round.
(** ** update *)
Definition rep (full r : list Z) (c : ctx) : Prop :=
  exists n j, zlen full = 64 * Z.of_nat n /\ zlen r < 64 /\ bytes r /\ cbuf c = r ++ j /\ zlen (cbuf c) = 64 /\
    count c = (zlen full + zlen r) mod 2 ^ 64 /\ val c = fold_left md5_compress (blocks 64 n full) md5_init_words /\ w4 (val c).
Lemma init_rep junk : zlen junk = 64 -> rep [] [] (md5_init junk).
Proof.
  intros L. exists 0%nat, junk. repeat split; cbn [md5_init cbuf count val]; auto; try constructor; try lia.
Qed.
Lemma blocks_1 (l : list Z) : zlen l = 64 -> blocks 64 1 l = [l].
Proof. intros L. cbn [blocks]. now rewrite ztake_all by lia. Qed.
Lemma update_loop_S fuel data o len ptr c : update_loop (S fuel) data o len ptr c =
      if 0 <? len then
        let clen := 64 - ptr in
        let clen := if len <? clen then len else clen in
        let* d := zreads data o clen in
        let* b := zwrites (cbuf c) ptr d in
        let ptr := ptr + clen in
        let cnt := u64 (count c + clen) in
        if ptr =? 64 then
          let* v := md5_round b 0 (val c) in update_loop fuel data (o + clen) (len - clen) 0 (mkCtx b cnt v)
        else update_loop fuel data (o + clen) (len - clen) ptr (mkCtx b cnt (val c))
      else Ret c.
Proof. reflexivity. Qed.
Lemma update_ok : forall fuel p l q full r c, bytes l -> rep full r c -> (length l < fuel)%nat ->
  exists full' r' c', update_loop fuel (p ++ l ++ q) (zlen p) (zlen l) (zlen r) c = Ret c' /\ full ++ r ++ l = full' ++ r' /\ rep full' r' c'.
Proof.
  induction fuel as [|fuel IH]; intros p l q full r c B R Fu; [lia|]. rewrite update_loop_S. destruct (Z.ltb_spec 0 (zlen l)) as [Hl|Hl].
  2: { assert (l = []) by (apply zlen_0; zpos; lia). subst l. exists full, r, c. rewrite app_nil_r. auto. }
  destruct R as (n & j & Lf & Lr & Br & Eb & Lb & Ec & Ev & W). cbv zeta.
  set (cl := if zlen l <? 64 - zlen r then zlen l else 64 - zlen r).
  assert (Hc : 0 < cl <= zlen l /\ zlen r + cl <= 64) by (unfold cl; destruct (Z.ltb_spec (zlen l) (64 - zlen r)); zpos; lia).
  assert (Hcl : cl < zlen l -> zlen r + cl = 64) by (unfold cl; destruct (Z.ltb_spec (zlen l) (64 - zlen r)); lia).
  clearbody cl. assert (Lj : zlen r + zlen j = 64) by (rewrite Eb in Lb; revert Lb; zl; auto).
  destruct (zsplit cl l) as (l1 & l2 & -> & L1); [lia|]. destruct (zsplit cl j) as (j1 & j2 & -> & Lj1); [zpos; lia|]. subst cl.
  apply bytes_app in B as [B1 B2]. rewrite <- !app_assoc. rewrite (zreads_at p l1 (l2 ++ q)) by reflexivity. rewrite bind_ret.
  rewrite Eb. rewrite (zwrites_at r j1 j2 l1) by auto. rewrite bind_ret.
  replace (zlen p + zlen l1) with (zlen (p ++ l1)) by (zl; lia). replace (zlen (l1 ++ l2) - zlen l1) with (zlen l2) by (zl; lia).
  replace (p ++ l1 ++ l2 ++ q) with ((p ++ l1) ++ l2 ++ q) by (now rewrite <- app_assoc).
  assert (Fu2 : (length l2 < fuel)%nat) by (rewrite app_length in Fu; assert (length l1 <> 0%nat) by (unfold zlen in Hc; lia); lia).
  assert (Cn : u64 (count c + zlen l1) = (zlen full + zlen r + zlen l1) mod 2 ^ 64) by (rewrite Ec; change (u64 ?x) with (x mod 2 ^ 64); rewrite Zplus_mod_idemp_l; reflexivity).
  destruct (Z.eqb_spec (zlen r + zlen l1) 64) as [E|E].
  - assert (j2 = []) by (apply zlen_0; revert Lj; zl; lia). subst j2. rewrite app_nil_r.
    destruct (round_ok [] (r ++ l1) [] (val c)) as [Rd W']; [zl; lia|apply bytes_app; auto|auto|]. cbn [app] in Rd. rewrite app_nil_r in Rd. change (zlen (@nil Z)) with 0 in Rd. rewrite Rd, bind_ret.
    destruct (IH (p ++ l1) l2 q (full ++ r ++ l1) [] (mkCtx (r ++ l1) (u64 (count c + zlen l1)) (md5_compress (val c) (r ++ l1)))) as (f' & r' & c' & Ru & Ed & R'); auto.
    { exists (n + 1)%nat, (r ++ l1). cbn [cbuf count val]. change (zlen (@nil Z)) with 0. split; [zl; lia|]. split; [lia|]. split; [constructor|]. split; [reflexivity|]. split; [zl; lia|].
      split; [rewrite Cn; zl; f_equal; lia|]. split; [|auto]. rewrite blocks_app by lia. rewrite fold_left_app, <- Ev. rewrite blocks_1 by (zl; lia). reflexivity. }
    exists f', r', c'. split; [exact Ru|]. split; [|exact R']. rewrite <- Ed. cbn [app]. now rewrite <- !app_assoc.
  - assert (l2 = []) by (apply zlen_0; destruct (Z.eq_dec (zlen l2) 0); auto; exfalso; apply E, Hcl; zl; zpos; lia). subst l2.
    destruct (IH (p ++ l1) [] q full (r ++ l1) (mkCtx (r ++ l1 ++ j2) (u64 (count c + zlen l1)) (val c))) as (f' & r' & c' & Ru & Ed & R'); auto.
    { exists n, j2. cbn [cbuf count val]. split; [auto|]. split; [zl; lia|]. split; [apply bytes_app; auto|]. split; [now rewrite app_assoc|]. split; [revert Lj; zl; lia|].
      split; [rewrite Cn; zl; f_equal; lia|]. auto. }
    exists f', r', c'. replace (zlen r + zlen l1) with (zlen (r ++ l1)) by (zl; lia). split; [exact Ru|]. split; [|exact R']. rewrite <- Ed. rewrite !app_nil_r. reflexivity.
Qed.
Ltac Zify.zify_post_hook ::= Z.div_mod_to_equations.
Lemma ptr_ok full r c : rep full r c -> Z.land (count c) 63 = zlen r.
Proof.
  intros (n & j & Lf & Lr & _ & _ & _ & Ec & _ & _). change 63 with (2 ^ 6 - 1). rewrite land_mask by lia. rewrite Ec, Lf. change (2 ^ 64) with (2 ^ 6 * 2 ^ 58). pose proof (zlen_nonneg r).
  rewrite Z.rem_mul_r by lia. rewrite (Z.mul_comm (2 ^ 6) (_ mod 2 ^ 58)), Z.mod_add, Z.mod_mod by lia. change (2 ^ 6) with 64. rewrite (Z.mul_comm 64), Z.add_comm, Z.mod_add by lia. apply Z.mod_small. lia.
Qed.
Lemma md5_update_ok p l q full r c : bytes l -> rep full r c ->
  exists full' r' c', md5_update (S (length l)) c (p ++ l ++ q) (zlen p) (zlen l) = Ret c' /\ full ++ r ++ l = full' ++ r' /\ rep full' r' c'.
Proof. intros B R. unfold md5_update. rewrite (ptr_ok _ _ _ R). apply update_ok; auto; lia. Qed.
(** ** end *)
Lemma zreads_0 (r j : list Z) : zreads (r ++ j) 0 (zlen r) = Ret r.
Proof. exact (zreads_at [] r j 0 (zlen r) eq_refl eq_refl). Qed.
Lemma zwrites_0 (m q l : list Z) : zlen m = zlen l -> zwrites (m ++ q) 0 l = Ret (l ++ q).
Proof. exact (zwrites_at [] m q l 0 eq_refl). Qed.
Lemma enc32_ok x : w32 x -> enc32le x = le_bytes 4 x.
Proof. intros W. unfold enc32le. cbn [le_bytes]. rewrite !Z.shiftr_div_pow2 by lia. rewrite !Z.div_div by lia. reflexivity. Qed.
Lemma enc64_ok x : enc64le (u64 x) = le_bytes 8 x.
Proof.
  unfold enc64le. rewrite !enc32_ok by apply u32_w. change 8%nat with (4 + 4)%nat. rewrite le_bytes_app. rewrite Z.shiftr_div_pow2 by lia. change (256 ^ Z.of_nat 4) with (2 ^ 32).
  change (u64 x) with (x mod 2 ^ 64). rewrite !u32_eq. f_equal.
  - rewrite <- (le_bytes_mod' 4 x). f_equal. change (256 ^ Z.of_nat 4) with (2 ^ 32). lia.
  - rewrite <- (le_bytes_mod' 4 (x / 2 ^ 32)). f_equal. change (256 ^ Z.of_nat 4) with (2 ^ 32). lia.
Qed.
Lemma zeros_bytes n : bytes (zrepeat 0 n).
Proof. unfold zrepeat, bytes. apply Forall_forall. intros x Hx. apply repeat_spec in Hx. subst. unfold byte. lia. Qed.
Lemma md5_tail full r n t k : zlen full = 64 * Z.of_nat n -> md5_pad (full ++ r) = full ++ t -> zlen t = 64 * Z.of_nat k ->
  md5_blocks (md5_pad (full ++ r)) md5_init_words = fold_left md5_compress (blocks 64 k t) (fold_left md5_compress (blocks 64 n full) md5_init_words).
Proof.
  intros Lf E Lt. rewrite E. unfold md5_blocks. replace (Z.to_nat (zlen (full ++ t) / 64)) with (n + k)%nat by (zl; lia). rewrite blocks_app by lia. now rewrite fold_left_app.
Qed.
Lemma len_bits full r c : rep full r c -> enc64le (u64 (Z.shiftl (count c) 3)) = le_bytes 8 (8 * zlen (full ++ r)).
Proof.
  intros (n & j & _ & _ & _ & _ & _ & Ec & _). rewrite enc64_ok. rewrite <- (le_bytes_mod' 8). rewrite <- (le_bytes_mod' 8 (8 * _)). f_equal. change (256 ^ Z.of_nat 8) with (2 ^ 64).
  rewrite Z.shiftl_mul_pow2 by lia. rewrite Ec. change (2 ^ 3) with 8. rewrite Z.mul_mod_idemp_l by lia. f_equal. zl. lia.
Qed.
Lemma md5_end_ok junk full r c u v : zlen junk = 64 -> rep full r c -> zlen u = 16 ->
  md5_end junk c (u ++ v) = Ret (md5 (full ++ r) ++ v).
Proof.
  intros Lj R Lu. pose proof (ptr_ok _ _ _ R) as Pt. pose proof (len_bits _ _ _ R) as Lb. destruct R as (n & j & Lf & Lr & Br & Eb & Lcb & Ec & Ev & W).
  unfold md5_end. cbv zeta. rewrite Pt, Lb. rewrite Eb. pose proof (zlen_nonneg r) as Pr.
  rewrite zreads_0. rewrite bind_ret.
  destruct (zsplit (zlen r) junk) as (k1 & k2 & -> & Lk1); [lia|]. rewrite zwrites_0 by auto. rewrite bind_ret.
  destruct k2 as [|x k2]; [revert Lj; zl; lia|]. rewrite zwrite_at by auto. rewrite bind_ret.
  assert (L8 : forall x, zlen (le_bytes 8 x) = 8) by (intros; apply le_bytes_len). set (lb := le_bytes 8 _). assert (Llb : zlen lb = 8) by apply L8. assert (Blb : bytes lb) by apply le_bytes_bytes.
  assert (Lk2 : zlen r + 1 + zlen k2 = 64) by (revert Lj; zl; lia).
  assert (zr : forall n, 0 <= n -> zlen (zrepeat 0 n) = n) by (intros; unfold zrepeat, zlen; rewrite repeat_length; lia).
  assert (Fin : forall w, w4 w -> w = md5_blocks (md5_pad (full ++ r)) md5_init_words ->
     (let '(v0, v1, v2, v3) := w in zwrites (u ++ v) 0 (enc32le v0 ++ enc32le v1 ++ enc32le v2 ++ enc32le v3)) = Ret (md5 (full ++ r) ++ v)).
  { intros w Ww Ew. unfold md5. rewrite <- Ew. destruct w as [[[a b] d] e]. destruct Ww as (Wa & Wb & Wd & We). rewrite !enc32_ok by auto. set (o := le_bytes 4 a ++ _).
    rewrite (zwrites_0 u v o); [reflexivity|]. unfold o. rewrite !zlen_app, !le_bytes_len. lia. }
  assert (Rd : forall l w, zlen l = 64 -> bytes l -> w4 w -> md5_round l 0 w = Ret (md5_compress w l) /\ w4 (md5_compress w l)).
  { intros l w Ll Bl Ww. pose proof (round_ok [] l [] w Ll Bl Ww) as [E1 E2]. cbn [app] in E1. rewrite app_nil_r in E1. auto. }
  destruct (Z.ltb_spec 56 (zlen r + 1)) as [Hr|Hr].
  - replace (r ++ 128 :: k2) with ((r ++ [128]) ++ k2 ++ []) by (rewrite app_nil_r, <- app_assoc; reflexivity).
    rewrite zwrites_at; [|zl; lia|rewrite zr by lia; lia]. rewrite bind_ret, app_nil_r. set (b1 := (r ++ [128]) ++ _).
    assert (Lb1 : zlen b1 = 64) by (unfold b1; rewrite !zlen_app, zr by lia; zl; lia).
    assert (Bb1 : bytes b1) by (unfold b1; apply bytes_app; split; [apply bytes_app; split; [auto|repeat constructor; lia]|apply zeros_bytes]).
    destruct (Rd b1 (val c) Lb1 Bb1 W) as [E1 W1]. rewrite E1, bind_ret.
    destruct (zsplit 56 b1) as (x1 & x2 & Ex & Lx1); [lia|]. rewrite Ex at 1.
    rewrite zwrites_0; [|rewrite zr by lia; lia]. rewrite !bind_ret.
    rewrite <- (app_nil_r x2). rewrite zwrites_at; [|rewrite zr by lia; lia|rewrite Llb; rewrite Ex in Lb1; revert Lb1; zl; lia]. rewrite bind_ret, app_nil_r.
    destruct (Rd (zrepeat 0 56 ++ lb) (md5_compress (val c) b1)) as [E2 W2]; [rewrite zlen_app, zr, Llb; lia|apply bytes_app; split; [apply zeros_bytes|apply le_bytes_bytes]|auto|].
    rewrite E2, bind_ret. apply Fin; [auto|].
    rewrite (md5_tail full r n (b1 ++ zrepeat 0 56 ++ lb) 2 Lf).
    + change 2%nat with (1 + 1)%nat. rewrite blocks_app by lia. rewrite !blocks_1; [now rewrite Ev|rewrite zlen_app, zr, Llb; lia|auto].
    + unfold md5_pad, b1. rewrite <- !app_assoc. do 3 f_equal. fold lb. rewrite app_assoc. f_equal. unfold zrepeat. rewrite <- repeat_app. f_equal. rewrite zlen_app, Lf. lia.
    + rewrite !zlen_app, zr, Llb by lia. lia.
  - destruct (zsplit (56 - (zlen r + 1)) k2) as (x1 & x2 & -> & Lx1); [lia|].
    replace (r ++ 128 :: x1 ++ x2) with ((r ++ [128]) ++ x1 ++ x2) by (rewrite <- app_assoc; reflexivity).
    rewrite zwrites_at; [|zl; lia|rewrite zr by lia; lia]. rewrite !bind_ret.
    assert (Lx2 : zlen x2 = 8) by (revert Lk2; zl; lia). rewrite app_assoc, <- (app_nil_r x2).
    rewrite zwrites_at; [|rewrite !zlen_app, zr by lia; zl; lia|rewrite Llb; lia]. rewrite bind_ret, app_nil_r. set (b1 := (_ ++ _) ++ lb).
    assert (Lb1 : zlen b1 = 64) by (unfold b1; rewrite !zlen_app, zr, Llb by lia; zl; lia).
    assert (Bb1 : bytes b1) by (unfold b1; repeat (apply bytes_app; split); auto using zeros_bytes; repeat constructor; lia).
    destruct (Rd b1 (val c) Lb1 Bb1 W) as [E1 W1]. rewrite E1, bind_ret. apply Fin; [auto|].
    rewrite (md5_tail full r n b1 1 Lf).
    + rewrite blocks_1 by auto. now rewrite Ev.
    + unfold md5_pad, b1. rewrite <- !app_assoc. do 3 f_equal. fold lb. do 2 f_equal. rewrite zlen_app, Lf. lia.
    + lia.
Qed.
Lemma md5_len d : zlen (md5 d) = 16.
Proof. unfold md5. destruct (md5_blocks _ _) as [[[a b] c] e]. rewrite !zlen_app, !le_bytes_len. reflexivity. Qed.
Lemma md5_bytes d : bytes (md5 d).
Proof. unfold md5. destruct (md5_blocks _ _) as [[[a b] c] e]. repeat (apply bytes_app; split); apply le_bytes_bytes. Qed.
