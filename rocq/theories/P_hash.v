(** Lemmas for the hash functions: blocks, byte order. *)
From Verif Require Import Base Bits S_hash P_crc32.
Ltac Zify.zify_post_hook ::= Z.div_mod_to_equations.

Lemma blocks_len {A} k n (l : list A) : length (blocks k n l) = n.
Proof. revert l. induction n; cbn; auto. Qed.
Lemma blocks_app {A} k : forall a b (l r : list A), 0 <= k -> zlen l = k * Z.of_nat a -> blocks k (a + b) (l ++ r) = blocks k a l ++ blocks k b r.
Proof.
  induction a as [|a IH]; intros b l r K L.
  - assert (l = []) by (apply zlen_0; lia). subst l. reflexivity.
  - cbn [plus blocks app]. assert (k <= zlen l) by nia. rewrite ztake_app1, zdrop_app1 by lia. f_equal. apply IH; auto. rewrite zlen_zdrop by lia. nia.
Qed.
Lemma le_val_app a b : le_val (a ++ b) = le_val a + 256 ^ zlen a * le_val b.
Proof.
  induction a as [|x a IH]; [change (256 ^ zlen (@nil Z)) with 1; cbn [app le_val]; lia|]. cbn [app le_val]. rewrite IH. zl. rewrite Z.pow_add_r by (zpos; lia). ring.
Qed.
Lemma le_bytes_len n : forall v, zlen (le_bytes n v) = Z.of_nat n.
Proof. induction n; intros; cbn [le_bytes]; [reflexivity|]. zl. rewrite IHn. lia. Qed.
Lemma le_bytes_bytes n : forall v, bytes (le_bytes n v).
Proof. induction n; intros; cbn [le_bytes]; [constructor|]. apply bytes_cons. split; [unfold byte; lia|auto]. Qed.
Lemma le_bytes_app a : forall b v, le_bytes (a + b) v = le_bytes a v ++ le_bytes b (v / 256 ^ Z.of_nat a).
Proof.
  induction a as [|a IH]; intros b v; [cbn; now rewrite Z.div_1_r|]. cbn [plus le_bytes app]. f_equal. rewrite IH. do 2 f_equal.
  rewrite Nat2Z.inj_succ, Z.pow_succ_r by lia. rewrite Z.div_div by lia. reflexivity.
Qed.
Lemma le_bytes_mod n : forall v m, le_bytes n (v mod (256 ^ Z.of_nat n * 2 ^ Z.of_nat m)) = le_bytes n v.
Proof.
  induction n as [|n IH]; intros v m; [reflexivity|]. cbn [le_bytes]. rewrite Nat2Z.inj_succ, Z.pow_succ_r by lia.
  assert (P : 0 < 256 ^ Z.of_nat n * 2 ^ Z.of_nat m) by (apply Z.mul_pos_pos; apply Z.pow_pos_nonneg; lia).
  rewrite <- Z.mul_assoc. rewrite Z.rem_mul_r by lia. f_equal; [|rewrite <- (IH (v / 256) m); f_equal]; rewrite (Z.mul_comm 256).
  - rewrite Z.mod_add by lia. apply Z.mod_mod. lia.
  - rewrite Z.div_add by lia. rewrite (Z.div_small (v mod 256)) by lia. reflexivity.
Qed.
Lemma le_bytes_mod' n v : le_bytes n (v mod 256 ^ Z.of_nat n) = le_bytes n v.
Proof. pose proof (le_bytes_mod n v 0) as E. change (2 ^ Z.of_nat 0) with 1 in E. rewrite Z.mul_1_r in E. exact E. Qed.
Lemma le_val_range l : bytes l -> 0 <= le_val l < 256 ^ zlen l.
Proof.
  induction l as [|b l IH]; intros B; [change (256 ^ zlen (@nil Z)) with 1; cbn; lia|]. apply bytes_cons in B as [Bb B]. specialize (IH B). cbn [le_val]. zl.
  rewrite Z.pow_add_r by (zpos; lia). unfold byte in Bb. change (256 ^ 1) with 256. lia.
Qed.
