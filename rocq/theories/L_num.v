(** Lemmas about positional notation (specification side only). *)
From Verif Require Import Base Bits Cstr S_num.
Ltac Zify.zify_post_hook ::= Z.div_mod_to_equations.

Lemma pos_value_app b x y : 0 <= b -> pos_value b (x ++ y) = pos_value b x * b ^ zlen y + pos_value b y.
Proof.
  intros Hb. induction x as [|d x IH]; [cbn; lia|]. cbn [app pos_value]. rewrite IH. zl. zpos.
  rewrite Z.pow_add_r by lia. lia.
Qed.
Lemma pos_value_snoc b x d : 0 <= b -> pos_value b (x ++ [d]) = pos_value b x * b + d.
Proof. intros. rewrite pos_value_app by lia. cbn [pos_value]. change (zlen [d]) with 1. change (zlen []) with 0. rewrite Z.pow_1_r, Z.pow_0_r. lia. Qed.
Lemma pos_value_range b ds : 0 < b -> digits_ok b ds -> 0 <= pos_value b ds < b ^ zlen ds.
Proof.
  intros Hb. induction ds as [|d ds IH]; intros H; [cbn; lia|]. apply Forall_cons_iff in H as [Hd H].
  specialize (IH H). cbn [pos_value]. zl. zpos. rewrite Z.pow_add_r by lia. rewrite Z.pow_1_r. nia.
Qed.
Lemma pos_value_inj b x : 0 < b -> forall y, digits_ok b x -> digits_ok b y -> zlen x = zlen y ->
  pos_value b x = pos_value b y -> x = y.
Proof.
  intros Hb. induction x as [|d x IH]; intros y Hx Hy HL HV.
  - symmetry in HL. now apply zlen_0 in HL.
  - destruct y as [|e y]; [zl; zpos; lia|].
    apply Forall_cons_iff in Hx as [Hd Hx]. apply Forall_cons_iff in Hy as [He Hy].
    cbn [pos_value] in HV. zl. assert (HL' : zlen x = zlen y) by lia. rewrite HL' in HV.
    pose proof (pos_value_range b x Hb Hx). pose proof (pos_value_range b y Hb Hy). rewrite HL' in *.
    assert (d = e) by nia. subst e. f_equal. apply IH; auto. lia.
Qed.
Lemma repr_low b n ds : 2 <= b -> is_repr b n ds -> n = 0 /\ ds = [0] \/ 0 < zlen ds /\ b ^ (zlen ds - 1) <= n < b ^ zlen ds /\ 0 < n.
Proof.
  intros Hb [Hd [Hv [->|[d [r [-> Hne]]]]]].
  - left. cbn in Hv. split; [lia|reflexivity].
  - right. pose proof (pos_value_range b (d :: r) ltac:(lia) Hd) as HR. rewrite Hv in HR.
    apply Forall_cons_iff in Hd as [Hd1 Hd2]. pose proof (pos_value_range b r ltac:(lia) Hd2) as HR2.
    cbn [pos_value] in Hv. zl. zpos. replace (1 + zlen r - 1) with (zlen r) by lia.
    assert (0 < b ^ zlen r) by (apply Z.pow_pos_nonneg; lia). split; [lia|]. split; [|nia]. split; [nia|]. lia.
Qed.
Lemma repr_unique b n x y : 2 <= b -> is_repr b n x -> is_repr b n y -> x = y.
Proof.
  intros Hb Hx Hy. destruct (repr_low b n x Hb Hx) as [[H0 ->]|[L1 [R1 P1]]];
   destruct (repr_low b n y Hb Hy) as [[H0' ->]|[L2 [R2 P2]]]; try lia; [reflexivity|].
  destruct Hx as [Dx [Vx _]]. destruct Hy as [Dy [Vy _]].
  apply (pos_value_inj b); try assumption; try lia.
  destruct (Z.lt_trichotomy (zlen x) (zlen y)) as [HL|[HL|HL]]; [|assumption|]; exfalso.
  - assert (b ^ zlen x <= b ^ (zlen y - 1)) by (apply Z.pow_le_mono_r; lia). lia.
  - assert (b ^ zlen y <= b ^ (zlen x - 1)) by (apply Z.pow_le_mono_r; lia). lia.
Qed.

(** existence, by repeated division *)
Fixpoint digs (fuel : nat) (b n : Z) (acc : list Z) : list Z :=
  match fuel with
  | O => acc
  | S fuel => if n =? 0 then acc else digs fuel b (n / b) (n mod b :: acc)
  end.
(** the len lowest digits *)
Fixpoint low_digits (len : nat) (b n : Z) : list Z :=
  match len with O => [] | S k => low_digits k b (n / b) ++ [n mod b] end.

Lemma low_digits_len k b n : zlen (low_digits k b n) = Z.of_nat k.
Proof. revert n. induction k as [|k IH]; intros n; [reflexivity|]. cbn [low_digits]. zl. rewrite IH. lia. Qed.
Lemma low_digits_ok k b n : 0 < b -> digits_ok b (low_digits k b n).
Proof.
  intros Hb. revert n. induction k as [|k IH]; intros n; [constructor|]. cbn [low_digits].
  apply Forall_app. split; [apply IH|]. constructor; [apply Z.mod_pos_bound; lia|constructor].
Qed.
Lemma low_digits_value k b n : 0 < b -> 0 <= n -> pos_value b (low_digits k b n) = n mod b ^ Z.of_nat k.
Proof.
  intros Hb. revert n. induction k as [|k IH]; intros n Hn.
  - cbn. now rewrite Z.mod_1_r.
  - cbn [low_digits]. rewrite pos_value_snoc by lia. rewrite IH by (apply Z.div_pos; lia).
    rewrite Nat2Z.inj_succ, Z.pow_succ_r by lia.
    assert (0 < b ^ Z.of_nat k) by (apply Z.pow_pos_nonneg; lia).
    rewrite Z.rem_mul_r by lia. lia.
Qed.
Lemma low_digits_0 k b : low_digits k b 0 = repeat 0 k.
Proof.
  induction k as [|k IH]; [reflexivity|]. cbn [low_digits]. rewrite Zdiv_0_l, Zmod_0_l, IH.
  rewrite <- repeat_cons. reflexivity.
Qed.
