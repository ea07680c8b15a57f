(** Proofs about rc4. *)
From Verif Require Import Base Bits M_rc4 S_rc4.
Ltac Zify.zify_post_hook ::= Z.div_mod_to_equations.

Definition repr (box : list Z) (s : Z -> Z) : Prop := zlen box = 256 /\ forall i, 0 <= i < 256 -> znth 0 box i = s i /\ 0 <= s i < 256.
Lemma box0_repr : repr box0 (fun k => k).
Proof.
  split; [reflexivity|]. intros i Hi. split; [|lia].
  assert (H : sweep 256 (fun i => znth 0 box0 i =? i) = true) by (vm_compute; reflexivity).
  pose proof (sweep_ok _ _ H i ltac:(lia)). cbn beta in *. lia.
Qed.
Lemma swap_repr box s a b : repr box s -> 0 <= a < 256 -> 0 <= b < 256 -> exists box', swap box a b = Ret box' /\ repr box' (exch s a b).
Proof.
  intros [HL H] Ha Hb. unfold swap. rewrite !(zread_ok 0) by lia. cbn [bind].
  destruct (H a Ha) as [Ea Ra]. destruct (H b Hb) as [Eb Rb]. rewrite Ea, Eb, !u8_id by lia.
  rewrite (zwrite_ok box) by lia. cbn [bind]. rewrite zwrite_ok by (rewrite zlen_upd; lia). eexists. split; [reflexivity|].
  split; [rewrite !zlen_upd by (rewrite ?zlen_upd; lia); assumption|]. intros i Hi. destruct (H i Hi) as [Ei Ri]. unfold exch.
  rewrite !znth_upd by (rewrite ?zlen_upd; lia). 
  destruct (i =? a) eqn:E1, (i =? b) eqn:E2; repeat match goal with |- context [if ?x =? ?y then _ else _] => destruct (x =? y) eqn:? end; split; try lia.
  all: try (assert (a = b) by lia; subst; lia).
Qed.

Lemma exch_range s a b : (forall i, 0 <= i < 256 -> 0 <= s i < 256) -> 0 <= a < 256 -> 0 <= b < 256 -> forall i, 0 <= i < 256 -> 0 <= exch s a b i < 256.
Proof. intros H Ha Hb i Hi. unfold exch. destruct (i =? a); [auto|]. destruct (i =? b); auto. Qed.

Lemma u64_small x : 0 <= x < 18446744073709551616 -> u64 x = x.
Proof. intros. unfold u64. lia. Qed.

(** m rounds done, n left *)
Lemma ksa_ok key keyrest : key <> [] -> bytes key -> zlen key < 18446744073709551615 ->
  forall n m box, repr box (fst (ksa key m)) -> 0 <= snd (ksa key m) < 256 -> Z.of_nat m + Z.of_nat n <= 256 ->
  exists box', rc4_ksa n box (key ++ keyrest) (Z.of_nat m) (snd (ksa key m)) (Z.of_nat m mod zlen key) (zlen key) = Ret box' /\
    repr box' (fst (ksa key (m + n))).
Proof.
  intros Hne Hb HK. assert (HKp : 0 < zlen key) by (destruct key; [congruence|zl; zpos; lia]).
  induction n as [|n IH]; intros m box HB Hy Hmn.
  - rewrite Nat.add_0_r. exists box. auto.
  - cbn [rc4_ksa]. pose proof HB as [HL HS]. destruct (HS (Z.of_nat m) ltac:(lia)) as [E1 R1].
    assert (Hz : 0 <= Z.of_nat m mod zlen key < zlen key) by (apply Z.mod_pos_bound; lia).
    rewrite (zread_ok 0) by lia. cbn [bind]. rewrite (zread_ok 0) by (zl; zpos; lia). cbn [bind]. rewrite znth_app1 by lia. rewrite E1.
    pose proof (Forall_znth _ 0 key _ Hb Hz) as Hk. cbn beta in Hk. unfold byte in Hk.
    rewrite (u64_small (_ + _)) by lia.
    set (y := (_ + _) mod 256). assert (Hy' : 0 <= y < 256) by (apply Z.mod_pos_bound; lia).
    destruct (swap_repr box _ (Z.of_nat m) y HB ltac:(lia) Hy') as [box' [-> HB']]. cbn [bind].
    assert (EK : ksa key (S m) = (exch (fst (ksa key m)) (Z.of_nat m) y, y)). { cbn [ksa]. unfold y. destruct (ksa key m). reflexivity. }
    specialize (IH (S m) box'). rewrite EK in IH. cbn [fst snd] in IH. destruct (IH HB' Hy' ltac:(lia)) as [b [E2 E3]].
    exists b. split; [|now rewrite Nat.add_succ_r]. rewrite <- E2. rewrite u64_small by lia. f_equal; [lia|].
    rewrite Nat2Z.inj_succ. unfold Z.succ. rewrite <- (Z.add_mod_idemp_l (Z.of_nat m)) by lia.
    destruct (_ =? zlen key) eqn:E.
    + replace (Z.of_nat m mod zlen key + 1) with (zlen key) by lia. rewrite Z.mod_same; lia.
    + rewrite (Z.mod_small (_ + 1)); lia.
Qed.
Lemma ksa_snd key n : 0 <= snd (ksa key n) < 256.
Proof. destruct n; cbn [ksa]; [cbn; lia|]. destruct (ksa key n). cbn [snd]. apply Z.mod_pos_bound. lia. Qed.
Lemma stream_len n : forall s i j, zlen (stream n s i j) = Z.of_nat n.
Proof. induction n as [|n IH]; intros; [reflexivity|]. cbn [stream]. rewrite zlen_cons, IH. lia. Qed.
Lemma stream_bytes n : forall s i j, (forall k, 0 <= k < 256 -> 0 <= s k < 256) -> bytes (stream n s i j).
Proof.
  induction n as [|n IH]; intros s i j Hs; [constructor|]. cbn [stream].
  assert (HE : forall k, 0 <= k < 256 -> 0 <= exch s ((i + 1) mod 256) ((j + s ((i + 1) mod 256)) mod 256) k < 256)
    by (apply exch_range; try assumption; apply Z.mod_pos_bound; lia).
  apply bytes_cons. split; [apply HE; apply Z.mod_pos_bound; lia|]. apply IH. exact HE.
Qed.
Lemma lxor_byte a b : byte a -> byte b -> byte (Z.lxor a b).
Proof.
  unfold byte. intros Ha Hb. assert (0 <= Z.lxor a b) by (apply Z.lxor_nonneg; lia). split; [assumption|].
  destruct (Z.eq_dec (Z.lxor a b) 0) as [->|]; [lia|]. apply Z.log2_lt_cancel. change (Z.log2 256) with 8.
  eapply Z.le_lt_trans; [apply Z.log2_lxor; lia|].
  assert (HG : forall x, 0 <= x < 256 -> Z.log2 x < 8). { intros x Hx. destruct (Z.eq_dec x 0) as [->|]; [cbn; lia|]. apply Z.log2_lt_pow2; lia. }
  pose proof (HG a Ha). pose proof (HG b Hb). lia.
Qed.

(** the memory with l stored at d *)
Lemma prga_ok mem0 d s : 0 <= d -> 0 <= s -> bytes mem0 ->
  forall n outs box st y z, repr box st -> 0 <= y < 256 -> 0 <= z < 256 ->
  d + zlen outs + Z.of_nat n <= zlen mem0 -> s + zlen outs + Z.of_nat n <= zlen mem0 -> (d <= s \/ s + zlen outs + Z.of_nat n <= d) ->
  rc4_prga n box (ztake d mem0 ++ outs ++ zdrop (d + zlen outs) mem0) d s (zlen outs) y z =
  Ret (ztake d mem0 ++ (outs ++ xor_bytes (ztake (Z.of_nat n) (zdrop (s + zlen outs) mem0)) (stream n st y z)) ++ zdrop (d + zlen outs + Z.of_nat n) mem0).
Proof.
  intros Hd Hs HB0. induction n as [|n IH]; intros outs box st y z HB Hy Hz H1 H2 H3; zpos.
  - cbn [rc4_prga stream]. unfold xor_bytes. change (ztake (Z.of_nat 0) _) with (@nil Z). cbn [combine map]. rewrite app_nil_r. now rewrite Z.add_0_r.
  - cbn [rc4_prga stream]. rewrite (u64_small (y + 1)) by lia. set (y' := (y + 1) mod 256). assert (Hy' : 0 <= y' < 256) by (apply Z.mod_pos_bound; lia).
    pose proof HB as [HL HS]. destruct (HS y' Hy') as [Ey Ry]. rewrite (zread_ok 0 box y') by lia. cbn [bind]. rewrite Ey.
    rewrite (u64_small (z + _)) by lia. set (z' := (z + st y') mod 256). assert (Hz' : 0 <= z' < 256) by (apply Z.mod_pos_bound; lia).
    destruct (swap_repr box st y' z' HB Hy' Hz') as [box' [-> HB']]. cbn [bind]. set (st' := exch st y' z') in *.
    pose proof HB' as [HL' HS'].
    assert (HC : zread (ztake d mem0 ++ outs ++ zdrop (d + zlen outs) mem0) (s + zlen outs) = Ret (znth 0 mem0 (s + zlen outs))).
    { rewrite (zread_ok 0) by (zl; rewrite zlen_ztake, zlen_zdrop by lia; lia). f_equal.
      destruct H3 as [H3|H3].
      - rewrite znth_app2 by (rewrite zlen_ztake by lia; lia). rewrite zlen_ztake by lia. rewrite znth_app2 by lia. rewrite znth_zdrop by lia. f_equal. lia.
      - rewrite znth_app1 by (rewrite zlen_ztake by lia; lia). rewrite znth_ztake by lia. reflexivity. }
    rewrite HC. cbn [bind]. rewrite !(zread_ok 0 box') by (try apply Z.mod_pos_bound; lia). cbn [bind].
    destruct (HS' y' Hy') as [Ey' Ry']. destruct (HS' z' Hz') as [Ez' Rz']. rewrite Ey', Ez'.
    assert (Hidx : 0 <= (st' y' + st' z') mod 256 < 256) by (apply Z.mod_pos_bound; lia).
    rewrite (zread_ok 0 box') by lia. cbn [bind]. destruct (HS' _ Hidx) as [Ek Rk]. rewrite Ek. set (k := st' ((st' y' + st' z') mod 256)) in *.
    assert (HBc : byte (znth 0 mem0 (s + zlen outs))) by (apply (Forall_znth _ 0 mem0 _ HB0); lia).
    rewrite u8_id by (apply lxor_byte; [assumption|exact Rk]).
    assert (ED : zdrop (d + zlen outs) mem0 = znth 0 mem0 (d + zlen outs) :: zdrop (d + zlen outs + 1) mem0).
    { rewrite (zsplit1 0 (d + zlen outs) mem0) at 1 by lia. rewrite zdrop_app2 by (rewrite zlen_ztake; lia). rewrite zlen_ztake by lia.
      replace (d + zlen outs - (d + zlen outs)) with 0 by lia. reflexivity. }
    rewrite ED. rewrite app_assoc. rewrite zwrite_at by (zl; rewrite zlen_ztake by lia; lia). cbn [bind].
    set (v := Z.lxor _ k). specialize (IH (outs ++ [v]) box' st' y' z' HB' Hy' Hz'). rewrite zlen_app, zlen_cons in IH. change (zlen []) with 0 in IH.
    replace (zlen outs + (1 + 0)) with (zlen outs + 1) in IH by lia. rewrite <- !app_assoc in IH. cbn [app] in IH. rewrite <- app_assoc.
    replace (d + (zlen outs + 1)) with (d + zlen outs + 1) in IH by lia. rewrite IH by lia. f_equal. f_equal. rewrite <- (app_assoc outs). f_equal.
    assert (ES : zdrop (s + zlen outs) mem0 = znth 0 mem0 (s + zlen outs) :: zdrop (s + zlen outs + 1) mem0).
    { rewrite (zsplit1 0 (s + zlen outs) mem0) at 1 by lia. rewrite zdrop_app2 by (rewrite zlen_ztake; lia). rewrite zlen_ztake by lia.
      replace (s + zlen outs - (s + zlen outs)) with 0 by lia. reflexivity. }
    rewrite ES. change (znth 0 mem0 (s + zlen outs) :: zdrop (s + zlen outs + 1) mem0) with ([znth 0 mem0 (s + zlen outs)] ++ zdrop (s + zlen outs + 1) mem0). rewrite ztake_app2 by (change (zlen [_]) with 1; lia). change (zlen [_]) with 1. cbn [app]. unfold xor_bytes. cbn [combine map app]. fold v.
    replace (Z.of_nat (S n) - 1) with (Z.of_nat n) by lia. replace (s + zlen outs + 1) with (s + (zlen outs + 1)) by lia.
    replace (d + zlen outs + Z.of_nat (S n)) with (d + zlen outs + 1 + Z.of_nat n) by lia. reflexivity.
Qed.

Lemma rc4_ok mem d s len key keyrest : key <> [] -> bytes key -> zlen key < 18446744073709551615 -> bytes mem ->
  0 <= len -> 0 <= d -> 0 <= s -> d + len <= zlen mem -> s + len <= zlen mem -> (d <= s \/ s + len <= d) ->
  rc4 mem d s len (key ++ keyrest) (zlen key) = Ret (ztake d mem ++ xor_bytes (ztake len (zdrop s mem)) (keystream key len) ++ zdrop (d + len) mem).
Proof.
  intros Hne Hb HK HM Hl Hd Hs H1 H2 H3. unfold rc4.
  destruct (ksa_ok key keyrest Hne Hb HK 256 0 box0) as [box [E1 E2]]; [exact box0_repr|cbn; lia|lia|].
  rewrite Zmod_0_l in E1. change (Z.of_nat 0) with 0 in E1. change (snd (ksa key 0)) with 0 in E1. rewrite E1. clear E1. cbn [bind Nat.add] in *.
  pose proof (prga_ok mem d s Hd Hs HM (Z.to_nat len) [] box (fst (ksa key 256)) 0 0 E2) as HP.
  change (zlen []) with 0 in HP. cbn [app] in HP. rewrite !Z.add_0_r in HP. rewrite Z2Nat.id in HP by lia.
  rewrite ztake_zdrop in HP. exact (HP ltac:(lia) ltac:(lia) H1 H2 H3).
Qed.
Lemma keystream_ok key n : key <> [] -> bytes key -> zlen key < 18446744073709551615 -> 0 <= n -> zlen (keystream key n) = n /\ bytes (keystream key n).
Proof.
  intros Hne Hb HK Hn. unfold keystream. split; [rewrite stream_len; lia|].
  destruct (ksa_ok key [] Hne Hb HK 256 0 box0) as [box [_ [_ E2]]]; [exact box0_repr|cbn; lia|lia|].
  apply stream_bytes. intros k Hk. now apply E2.
Qed.
Lemma xor_len a b : zlen a = zlen b -> zlen (xor_bytes a b) = zlen a.
Proof. intros H. unfold xor_bytes, zlen in *. rewrite map_length, combine_length. lia. Qed.
Lemma xor_twice a : forall b, zlen a = zlen b -> xor_bytes (xor_bytes a b) b = a.
Proof.
  induction a as [|x a IH]; intros [|y b] H; zl; zpos; try lia; try reflexivity. 
  unfold xor_bytes in *. cbn [combine map]. rewrite IH by lia. f_equal. rewrite Z.lxor_assoc, Z.lxor_nilpotent, Z.lxor_0_r. reflexivity.
Qed.
Lemma xor_is_bytes a : forall b, bytes a -> bytes b -> bytes (xor_bytes a b).
Proof.
  induction a as [|x a IH]; intros [|y b] Ha Hb; try constructor.
  - apply bytes_cons in Ha as [? ?]. apply bytes_cons in Hb as [? ?]. now apply lxor_byte.
  - apply bytes_cons in Ha as [? ?]. apply bytes_cons in Hb as [? ?]. now apply IH.
Qed.
Lemma bytes_ztake n l : bytes l -> bytes (ztake n l).
Proof. unfold ztake. revert l. induction (Z.to_nat n) as [|k IH]; intros l Hl; [constructor|]. destruct l; [constructor|]. inversion Hl; subst. cbn [firstn]. constructor; auto. now apply IH. Qed.
Lemma bytes_zdrop n l : bytes l -> bytes (zdrop n l).
Proof. unfold zdrop. revert l. induction (Z.to_nat n) as [|k IH]; intros l Hl; [assumption|]. destruct l; [constructor|]. inversion Hl; subst. cbn [skipn]. now apply IH. Qed.
(** in place, twice *)
Lemma rc4_twice mem d len key keyrest : key <> [] -> bytes key -> zlen key < 18446744073709551615 -> bytes mem ->
  0 <= len -> 0 <= d -> d + len <= zlen mem ->
  exists mem', rc4 mem d d len (key ++ keyrest) (zlen key) = Ret mem' /\ rc4 mem' d d len (key ++ keyrest) (zlen key) = Ret mem.
Proof.
  intros Hne Hb HK HM Hl Hd H1. eexists. rewrite rc4_ok by (try assumption; lia). split; [reflexivity|].
  destruct (keystream_ok key len Hne Hb HK Hl) as [KL KB].
  assert (HT : zlen (ztake len (zdrop d mem)) = len) by (rewrite zlen_ztake; rewrite ?zlen_zdrop by lia; lia).
  set (X := xor_bytes _ _). assert (HX : zlen X = len) by (unfold X; rewrite xor_len; lia).
  assert (HA : zlen (ztake d mem) = d) by (rewrite zlen_ztake; lia).
  rewrite rc4_ok; try assumption; try lia.
  - rewrite ztake_app1 by lia. rewrite (ztake_all d) by lia. rewrite (zdrop_app2 d) by lia. rewrite HA, Z.sub_diag, zdrop_0.
    rewrite (ztake_app1 len) by lia. rewrite (ztake_all len) by lia. 
    assert (EX : xor_bytes X (keystream key len) = ztake len (zdrop d mem)) by (apply xor_twice; lia). rewrite EX.
    rewrite (zdrop_app2 (d + len)) by lia. rewrite zdrop_app2 by lia. rewrite HA, HX. replace (d + len - d - len) with 0 by lia. rewrite zdrop_0.
    f_equal. rewrite Z.add_comm, <- zdrop_zdrop by lia. rewrite ztake_zdrop. apply ztake_zdrop.
  - apply bytes_app. split; [now apply bytes_ztake|]. apply bytes_app. split; [|now apply bytes_zdrop]. apply xor_is_bytes; [now apply bytes_ztake, bytes_zdrop|assumption].
  - zl. rewrite zlen_zdrop by lia. lia.
  - zl. rewrite zlen_zdrop by lia. lia.
Qed.
(** keylen 0: the index z is never reset *)
Lemma rc4_keylen0 : forall mem d s len, rc4 mem d s len [] 0 = UB.
Proof. reflexivity. Qed.
