From Verif Require Import Base Bits M_rc4 S_rc4 P_rc4.
Ltac Zify.zify_post_hook ::= Z.div_mod_to_equations.

Lemma next_key m l : 0 < l < 18446744073709551616 -> 0 <= m -> (if u64 (m mod l + 1) =? l then 0 else u64 (m mod l + 1)) = (m + 1) mod l.
Proof.
  intros Hl Hm. assert (B : 0 <= m mod l < l) by (apply Z.mod_pos_bound; lia). rewrite u64_small by lia. rewrite <- (Z.add_mod_idemp_l m) by lia. destruct (Z.eqb_spec (m mod l + 1) l) as [E|E].
  - rewrite E, Z.mod_same; lia.
  - rewrite (Z.mod_small (m mod l + 1)); lia.
Qed.
Lemma ksa_same k1 l1 k2 l2 : 0 < l1 < 18446744073709551616 -> 0 < l2 < 18446744073709551616 -> (forall i, 0 <= i < 256 -> zread k1 (i mod l1) = zread k2 (i mod l2)) ->
  forall n m box y, 0 <= m -> m + Z.of_nat n <= 256 -> rc4_ksa n box k1 m y (m mod l1) l1 = rc4_ksa n box k2 m y (m mod l2) l2.
Proof.
  intros H1 H2 H. induction n as [|n IH]; intros m box y Hm Hn; [reflexivity|]. cbn [rc4_ksa]. rewrite H by lia. destruct (zread box m); cbn [bind]; auto. destruct (zread k2 (m mod l2)); cbn [bind]; auto. destruct (swap _ _ _); cbn [bind]; auto.
  rewrite !next_key by lia. apply IH; lia.
Qed.
Lemma zread_or (A : Type) (l : list A) i : (exists x, zread l i = Ret x) \/ zread l i = UB.
Proof. unfold zread. destruct (0 <=? i); [|auto]. destruct (nth_error l (Z.to_nat i)); eauto. Qed.
Lemma zwrite_or (A : Type) (l : list A) i v : (exists x, zwrite l i v = Ret x) \/ zwrite l i v = UB.
Proof. unfold zwrite. destruct (_ && _); eauto. Qed.
Lemma swap_or box a b : (exists x, swap box a b = Ret x) \/ swap box a b = UB.
Proof.
  unfold swap. destruct (zread_or _ box a) as [[x ->]| ->]; cbn [bind]; auto. destruct (zread_or _ box b) as [[y ->]| ->]; cbn [bind]; auto. destruct (zwrite_or _ box a (u8 y)) as [[w ->]| ->]; cbn [bind]; auto. apply zwrite_or.
Qed.
Lemma ksa_short key keylen : zlen key < 256 -> keylen = 0 \/ zlen key < keylen -> forall n x box y, 0 <= x <= zlen key -> zlen key < x + Z.of_nat n -> rc4_ksa n box key x y x keylen = UB.
Proof.
  intros Hk HL. induction n as [|n IH]; intros x box y Hx Hn; [lia|]. cbn [rc4_ksa]. destruct (zread_or _ box x) as [[bx ->]| ->]; cbn [bind]; auto.
  destruct (Z.eq_dec x (zlen key)) as [->|N].
  - rewrite zread_oob by lia. reflexivity.
  - rewrite (zread_ok 0) by lia. cbn [bind]. destruct (swap_or box x (u64 (y + bx + znth 0 key x) mod 256)) as [[b ->]| ->]; cbn [bind]; auto. rewrite (u64_small (x + 1)) by lia. replace (x + 1 =? keylen) with false by lia. apply IH; lia.
Qed.
Lemma ksa_zero key l : 256 <= l < 18446744073709551616 -> forall n x box y, 0 <= x -> x + Z.of_nat n <= 256 -> rc4_ksa n box key x y x 0 = rc4_ksa n box key x y (x mod l) l.
Proof.
  intros Hl. induction n as [|n IH]; intros x box y Hx Hn; [reflexivity|]. cbn [rc4_ksa]. rewrite next_key by lia. rewrite (Z.mod_small x) by lia. destruct (zread box x); cbn [bind]; auto. destruct (zread key x); cbn [bind]; auto. destruct (swap _ _ _); cbn [bind]; auto.
  rewrite (u64_small (x + 1)) by lia. replace (x + 1 =? 0) with false by lia. apply IH; lia.
Qed.

(** the output where dst lies behind src *)
Definition lagged (mem : list Z) (s delta : Z) (ks outs : list Z) : Prop :=
  zlen outs = zlen ks /\ forall i, 0 <= i < zlen outs -> znth 0 outs i = Z.lxor (if i <? delta then znth 0 mem (s + i) else znth 0 outs (i - delta)) (znth 0 ks i).
Lemma prga_lag mem0 d s : 0 <= s < d -> bytes mem0 ->
  forall n outs kd box st y z, repr box st -> 0 <= y < 256 -> 0 <= z < 256 -> d + zlen outs + Z.of_nat n <= zlen mem0 -> bytes outs -> lagged mem0 s (d - s) kd outs ->
  exists outs', rc4_prga n box (ztake d mem0 ++ outs ++ zdrop (d + zlen outs) mem0) d s (zlen outs) y z = Ret (ztake d mem0 ++ outs' ++ zdrop (d + zlen outs + Z.of_nat n) mem0) /\
    lagged mem0 s (d - s) (kd ++ stream n st y z) outs'.
Proof.
  intros Hd HB0. induction n as [|n IH]; intros outs kd box st y z HB Hy Hz H1 BO LG; zpos.
  - exists outs. cbn [rc4_prga stream]. rewrite app_nil_r, Z.add_0_r. auto.
  - cbn [rc4_prga stream]. rewrite (u64_small (y + 1)) by lia. set (y' := (y + 1) mod 256). assert (Hy' : 0 <= y' < 256) by (apply Z.mod_pos_bound; lia).
    pose proof HB as [HL HS]. destruct (HS y' Hy') as [Ey Ry]. rewrite (zread_ok 0 box y') by lia. cbn [bind]. rewrite Ey.
    rewrite (u64_small (z + _)) by lia. set (z' := (z + st y') mod 256). assert (Hz' : 0 <= z' < 256) by (apply Z.mod_pos_bound; lia).
    destruct (swap_repr box st y' z' HB Hy' Hz') as [box' [-> HB']]. cbn [bind]. set (st' := exch st y' z') in *.
    pose proof HB' as [HL' HS'].
    set (c := if zlen outs <? d - s then znth 0 mem0 (s + zlen outs) else znth 0 outs (zlen outs - (d - s))).
    assert (HC : zread (ztake d mem0 ++ outs ++ zdrop (d + zlen outs) mem0) (s + zlen outs) = Ret c).
    { rewrite (zread_ok 0) by (zl; rewrite zlen_ztake, zlen_zdrop by lia; lia). f_equal. unfold c. destruct (Z.ltb_spec (zlen outs) (d - s)).
      - rewrite znth_app1 by (rewrite zlen_ztake by lia; lia). rewrite znth_ztake by lia. reflexivity.
      - rewrite znth_app2 by (rewrite zlen_ztake by lia; lia). rewrite zlen_ztake by lia. rewrite znth_app1 by lia. f_equal. lia. }
    assert (HBc : byte c). { unfold c. destruct (Z.ltb_spec (zlen outs) (d - s)); [apply (Forall_znth _ 0 mem0 _ HB0)|apply (Forall_znth _ 0 outs _ BO)]; lia. }
    rewrite HC. cbn [bind]. rewrite !(zread_ok 0 box') by (try apply Z.mod_pos_bound; lia). cbn [bind].
    destruct (HS' y' Hy') as [Ey' Ry']. destruct (HS' z' Hz') as [Ez' Rz']. rewrite Ey', Ez'.
    assert (Hidx : 0 <= (st' y' + st' z') mod 256 < 256) by (apply Z.mod_pos_bound; lia).
    rewrite (zread_ok 0 box') by lia. cbn [bind]. destruct (HS' _ Hidx) as [Ek Rk]. rewrite Ek. set (k := st' ((st' y' + st' z') mod 256)) in *.
    assert (HV : byte (Z.lxor c k)) by (apply lxor_byte; [assumption|exact Rk]). rewrite u8_id by exact HV.
    assert (ED : zdrop (d + zlen outs) mem0 = znth 0 mem0 (d + zlen outs) :: zdrop (d + zlen outs + 1) mem0).
    { rewrite (zsplit1 0 (d + zlen outs) mem0) at 1 by lia. rewrite zdrop_app2 by (rewrite zlen_ztake; lia). rewrite zlen_ztake by lia.
      replace (d + zlen outs - (d + zlen outs)) with 0 by lia. reflexivity. }
    rewrite ED. rewrite app_assoc. rewrite zwrite_at by (zl; rewrite zlen_ztake by lia; lia). cbn [bind].
    set (v := Z.lxor c k) in *. assert (L1 : zlen (outs ++ [v]) = zlen outs + 1) by now rewrite zlen_app.
    destruct LG as [LL LN]. assert (LG' : lagged mem0 s (d - s) (kd ++ [k]) (outs ++ [v])).
    { split; [rewrite L1, zlen_app; change (zlen [k]) with 1; lia|]. rewrite L1. intros i Hi. destruct (Z.eq_dec i (zlen outs)) as [->|NE].
      - rewrite znth_app2 by lia. rewrite Z.sub_diag. change (znth 0 [v] 0) with v. unfold v, c. f_equal.
        + destruct (Z.ltb_spec (zlen outs) (d - s)); [reflexivity|]. rewrite znth_app1 by lia. reflexivity.
        + rewrite LL. rewrite znth_app2 by lia. rewrite Z.sub_diag. reflexivity.
      - rewrite !(znth_app1 _ outs) by lia. rewrite (znth_app1 _ kd) by lia. rewrite LN by lia. f_equal. destruct (Z.ltb_spec i (d - s)); [reflexivity|]. rewrite znth_app1 by lia. reflexivity. }
    destruct (IH (outs ++ [v]) (kd ++ [k]) box' st' y' z' HB' Hy' Hz') as (outs' & E & LGn).
    { rewrite L1. lia. } { apply bytes_app. split; [exact BO|]. constructor; [exact HV|constructor]. } { exact LG'. }
    exists outs'. split.
    + rewrite L1 in E. rewrite <- !app_assoc in E. cbn [app] in E. rewrite <- app_assoc. replace (d + (zlen outs + 1)) with (d + zlen outs + 1) in E by lia. rewrite E. f_equal. f_equal. f_equal. f_equal. lia.
    + rewrite <- app_assoc in LGn. exact LGn.
Qed.
