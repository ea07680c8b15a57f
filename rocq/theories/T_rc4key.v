(** C43: which bytes of the key matter, keys that are too short, and output behind the input. *)
From Verif Require Import Base Bits M_rc4 S_rc4 P_rc4 P_rc4key.
Ltac Zify.zify_post_hook ::= Z.div_mod_to_equations.

(** rc4 only sees the key repeated to 256 bytes: a key and the same key written twice, or two keys with
    the same first 256 bytes, encrypt alike *)
Theorem c43_same_key : forall mem d s len k1 r1 k2 r2, k1 <> [] -> k2 <> [] -> zlen k1 < 18446744073709551616 -> zlen k2 < 18446744073709551616 ->
  (forall i, 0 <= i < 256 -> znth 0 k1 (i mod zlen k1) = znth 0 k2 (i mod zlen k2)) -> rc4 mem d s len (k1 ++ r1) (zlen k1) = rc4 mem d s len (k2 ++ r2) (zlen k2).
Proof.
  intros mem d s len k1 r1 k2 r2 N1 N2 L1 L2 H. assert (P1 : 0 < zlen k1) by (destruct k1; [congruence|zl; zpos; lia]). assert (P2 : 0 < zlen k2) by (destruct k2; [congruence|zl; zpos; lia]).
  unfold rc4. pose proof (ksa_same (k1 ++ r1) (zlen k1) (k2 ++ r2) (zlen k2) ltac:(lia) ltac:(lia)) as K.
  assert (Q : forall i, 0 <= i < 256 -> zread (k1 ++ r1) (i mod zlen k1) = zread (k2 ++ r2) (i mod zlen k2)).
  { intros i Hi. specialize (H i Hi). assert (M1 : 0 <= i mod zlen k1 < zlen k1) by (apply Z.mod_pos_bound; lia). assert (M2 : 0 <= i mod zlen k2 < zlen k2) by (apply Z.mod_pos_bound; lia). revert H M1 M2. generalize (i mod zlen k1) (i mod zlen k2). intros a b H M1 M2.
    assert (0 <= zlen r1) by (apply zlen_nonneg). assert (0 <= zlen r2) by (apply zlen_nonneg). rewrite !(zread_ok 0) by (rewrite zlen_app; lia). rewrite !znth_app1 by lia. now rewrite H. }
  specialize (K Q 256%nat 0 box0 0 ltac:(lia) ltac:(lia)). rewrite !Zmod_0_l in K. now rewrite K.
Qed.
Print Assumptions c43_same_key.
Theorem c43_key_twice : forall mem d s len k r, k <> [] -> 2 * zlen k < 18446744073709551616 -> rc4 mem d s len (k ++ k ++ r) (zlen (k ++ k)) = rc4 mem d s len (k ++ r) (zlen k).
Proof.
  intros mem d s len k r N L. assert (P : 0 < zlen k) by (destruct k; [congruence|zl; zpos; lia]). rewrite app_assoc. apply c43_same_key; auto; [intros X; apply app_eq_nil in X as [X _]; auto|rewrite zlen_app; lia|lia|].
  intros i Hi. rewrite zlen_app. replace (zlen k + zlen k) with (zlen k * 2) by lia. rewrite Z.rem_mul_r by lia. assert (0 <= i mod zlen k < zlen k) by (apply Z.mod_pos_bound; lia). assert (Q : (i / zlen k) mod 2 = 0 \/ (i / zlen k) mod 2 = 1) by (pose proof (Z.mod_pos_bound (i / zlen k) 2); lia).
  destruct Q as [-> | ->]; [rewrite Z.mul_0_r, Z.add_0_r, znth_app1 by lia; reflexivity|]. rewrite Z.mul_1_r, znth_app2 by lia. f_equal. lia.
Qed.
Print Assumptions c43_key_twice.
(** an array shorter than both keylen and 256 bytes, or keylen 0 and fewer than 256 bytes: read past its end *)
Theorem c43_short_key : forall mem d s len key keylen, zlen key < 256 -> keylen = 0 \/ zlen key < keylen -> rc4 mem d s len key keylen = UB.
Proof. intros mem d s len key keylen L K. unfold rc4. rewrite (ksa_short key keylen L K) by (zpos; lia). reflexivity. Qed.
Print Assumptions c43_short_key.
(** keylen 0 is no error: 256 bytes behind the pointer become the key *)
Theorem c43_keylen_0 : forall mem d s len key rest, zlen key = 256 -> rc4 mem d s len (key ++ rest) 0 = rc4 mem d s len (key ++ rest) (zlen key).
Proof. intros mem d s len key rest L. unfold rc4. rewrite (ksa_zero (key ++ rest) (zlen key)) by lia. now rewrite Zmod_0_l. Qed.
Print Assumptions c43_keylen_0.
(** with dst behind src every byte is the key stream on the input byte, or on the output byte d - s places before *)
Theorem c43_behind : forall mem d s len key keyrest, key <> [] -> bytes key -> zlen key < 18446744073709551615 -> bytes mem -> 0 <= len -> 0 <= s < d -> d + len <= zlen mem ->
  exists outs, rc4 mem d s len (key ++ keyrest) (zlen key) = Ret (ztake d mem ++ outs ++ zdrop (d + len) mem) /\ zlen outs = len /\
    forall i, 0 <= i < len -> znth 0 outs i = Z.lxor (if i <? d - s then znth 0 mem (s + i) else znth 0 outs (i - (d - s))) (znth 0 (keystream key len) i).
Proof.
  intros mem d s len key keyrest Hne Hb HK HM Hl Hd H1. unfold rc4.
  destruct (ksa_ok key keyrest Hne Hb HK 256 0 box0) as [box [E1 E2]]; [exact box0_repr|cbn; lia|lia|].
  rewrite Zmod_0_l in E1. change (Z.of_nat 0) with 0 in E1. change (snd (ksa key 0)) with 0 in E1. rewrite E1. clear E1. cbn [bind Nat.add] in *.
  destruct (prga_lag mem d s Hd HM (Z.to_nat len) [] [] box (fst (ksa key 256)) 0 0 E2 ltac:(lia) ltac:(lia)) as (outs & E & LL & LN).
  { change (zlen (@nil Z)) with 0. lia. } { constructor. } { split; [reflexivity|]. change (zlen (@nil Z)) with 0. intros; lia. }
  change (zlen (@nil Z)) with 0 in E. cbn [app] in E, LL, LN. rewrite !Z.add_0_r, ztake_zdrop in E. rewrite Z2Nat.id in E by lia. exists outs. split; [exact E|].
  change (stream (Z.to_nat len) (fst (ksa key 256)) 0 0) with (keystream key len) in *. destruct (keystream_ok key len Hne Hb HK Hl) as [KL _]. split; [lia|]. intros i Hi. apply LN. lia.
Qed.
Print Assumptions c43_behind.
(* key stream EB 9F ...; overlapping by one byte the second byte gets both *)
Example c43_overlap_refuted : rc4 [0; 0; 0] 1 0 2 [75; 101; 121; 0] 3 = Ret [0; 235; 116] /\ rc4 [0; 0; 0; 0] 2 0 2 [75; 101; 121; 0] 3 = Ret [0; 0; 235; 159].
Proof. split; vm_compute; reflexivity. Qed.
Example c43_keys_ex : rc4 [80; 108; 97] 0 0 3 [75; 101; 121; 75; 101; 121] 6 = Ret [187; 243; 22].
Proof. vm_compute. reflexivity. Qed.
