(** Proofs about hex conversion. *)
From Verif Require Import Base Bits Cstr S_num L_num M_hex S_hex.
Ltac Zify.zify_post_hook ::= Z.div_mod_to_equations.

Lemma hextab_ok v : 0 <= v < 16 -> zread hextab v = Ret (digit_char true v).
Proof.
  intros H. assert (E : match zread hextab v with Ret x => x =? digit_char true v | _ => false end = true).
  { apply (sweep_ok 16 (fun v => match zread hextab v with Ret x => x =? digit_char true v | _ => false end));
      [vm_compute; reflexivity|lia]. }
  destruct (zread hextab v); try discriminate. f_equal; lia.
Qed.

Lemma raw2hex_loop_ok x : forall sp srest dp room,
  bytes x -> 2 * zlen x + 1 <= zlen room ->
  raw2hex_loop (length x) (dp ++ room) (sp ++ x ++ srest) (zlen sp) (zlen dp) =
  Ret (dp ++ hex_of x ++ 0 :: zdrop (2 * zlen x + 1) room).
Proof.
  induction x as [|b x IH]; intros sp srest dp room HB HL; cbn [raw2hex_loop length].
  - destruct (zlen_cons_inv room) as [r [q ->]]; [zl; lia|]. rewrite zwrite_at by reflexivity. reflexivity.
  - apply bytes_cons in HB as [Hb HB]. cbn [app]. rewrite zread_at by reflexivity. cbn [bind].
    unfold byte in Hb.
    rewrite (Z.land_comm 15), land_15, Z.shiftr_div_pow2 by lia. change (2 ^ 4) with 16.
    rewrite hextab_ok by lia. cbn [bind].
    destruct room as [|r1 [|r2 room]]; try (zl; zpos; lia).
    rewrite zwrite_at by lia. cbn [bind]. rewrite (Z.land_comm 15), land_15, hextab_ok by lia. cbn [bind].
    rewrite zwrite_seq1 by lia. cbn [bind].
    specialize (IH (sp ++ [b]) srest (dp ++ [digit_char true (b / 16 mod 16); digit_char true (b mod 16)]) room).
    rewrite <- !app_assoc in IH. cbn [app] in IH. zl. zpos.
    replace (zlen sp + 1) with (zlen sp + (1 + 0)) by lia. replace (zlen dp + 2) with (zlen dp + (1 + (1 + 0))) by lia.
    rewrite IH by (assumption || lia). unfold hex_of. cbn [map concat app].
    replace (b / 16 mod 16) with (b / 16) by lia. do 5 f_equal.
    change (r1 :: r2 :: room) with ([r1; r2] ++ room). rewrite zdrop_app2 by zlia. do 2 f_equal. zl. lia.
Qed.
Lemma raw2hex_ok x srest dst : bytes x -> 2 * zlen x + 1 <= zlen dst ->
  raw2hex dst (x ++ srest) (zlen x) = Ret (hex_of x ++ 0 :: zdrop (2 * zlen x + 1) dst).
Proof.
  intros HB HL. unfold raw2hex. unfold zlen at 1. rewrite Nat2Z.id.
  exact (raw2hex_loop_ok x [] srest [] dst HB HL).
Qed.

Lemma hval_ok c v : hexdigit c v -> hval c = v /\ c <> 0 /\ byte c.
Proof.
  intros [Hv Hc].
  assert (E : forall b, (hval (digit_char b v) =? v) && negb (digit_char b v =? 0) &&
     (0 <=? digit_char b v) && (digit_char b v <? 256) = true).
  { intros b. apply (sweep_ok 16 (fun v => (hval (digit_char b v) =? v) && negb (digit_char b v =? 0) &&
     (0 <=? digit_char b v) && (digit_char b v <? 256))); [destruct b; vm_compute; reflexivity|lia]. }
  pose proof (E true). pose proof (E false). unfold byte. destruct Hc as [-> | ->]; lia.
Qed.

Fixpoint pairs (vs : list Z) : list Z :=
  match vs with a :: b :: r => (a * 16 + b) :: pairs r | _ => [] end.

Lemma pairs_len n : forall vs, zlen vs = 2 * Z.of_nat n -> zlen (pairs vs) = Z.of_nat n.
Proof.
  induction n as [|n IH]; intros [|a [|b vs]] H; zl; zpos; try lia; try reflexivity.
  cbn [pairs]. zl. rewrite IH; lia.
Qed.
Lemma pairs_value n : forall vs, zlen vs = 2 * Z.of_nat n -> pos_value 256 (pairs vs) = pos_value 16 vs.
Proof.
  induction n as [|n IH]; intros [|a [|b vs]] H; zl; zpos; try lia; try reflexivity.
  cbn [pairs pos_value]. rewrite IH by lia. rewrite (pairs_len n) by lia. zl.
  replace (zlen vs) with (2 * Z.of_nat n) by lia. rewrite Z.pow_add_r, Z.pow_1_r by lia.
  rewrite Z.pow_mul_r by lia. change (16 ^ 2) with 256. lia.
Qed.
Lemma pairs_bytes n : forall vs, zlen vs = 2 * Z.of_nat n -> digits_ok 16 vs -> bytes (pairs vs).
Proof.
  induction n as [|n IH]; intros [|a [|b vs]] H HD; zl; zpos; try lia; try constructor.
  - apply Forall_cons_iff in HD as [? HD]. apply Forall_cons_iff in HD as [? HD]. unfold byte. lia.
  - apply Forall_cons_iff in HD as [? HD]. apply Forall_cons_iff in HD as [? HD]. apply IH; [lia|assumption].
Qed.

Lemma hextext_digits s vs : hextext s vs -> digits_ok 16 vs.
Proof. induction 1; constructor; [|assumption]. apply H. Qed.
Lemma hextext_nz s vs : hextext s vs -> nz s.
Proof. induction 1 as [|c v s vs H]; constructor; [|assumption]. now apply (hval_ok _ _ H). Qed.
Lemma hextext_len s vs : hextext s vs -> zlen s = zlen vs.
Proof. induction 1; zl; lia. Qed.

Lemma hex2raw_loop_ok n : forall fuel s vs hp hrest op room,
  hextext s vs -> zlen vs = 2 * Z.of_nat n -> (n < fuel)%nat -> Z.of_nat n <= zlen room ->
  hex2raw_loop fuel (hp ++ s ++ 0 :: hrest) (op ++ room) (zlen hp) (zlen op) =
  Ret (op ++ pairs vs ++ zdrop (Z.of_nat n) room).
Proof.
  induction n as [|n IH]; intros fuel s vs hp hrest op room HT HL Hf HR; (destruct fuel as [|fuel]; [lia|]);
    destruct HT as [|c1 v1 s vs H1 HT]; try (zl; zpos; lia); cbn [hex2raw_loop].
  - cbn [app]. rewrite zread_at by reflexivity. cbn [bind]. reflexivity.
  - destruct HT as [|c2 v2 s vs H2 HT]; try (zl; zpos; lia).
    pose proof (proj1 H1) as B1. pose proof (proj1 H2) as B2.
    destruct (hval_ok _ _ H1) as [E1 [N1 _]]. destruct (hval_ok _ _ H2) as [E2 [N2 _]].
    cbn [app]. rewrite zread_at by reflexivity. cbn [bind]. replace (c1 =? 0) with false by lia.
    rewrite E1. replace (v1 <? 0) with false by lia. rewrite zread_seq1 by reflexivity. cbn [bind].
    rewrite E2. destruct (zlen_cons_inv room) as [r [q ->]]; [lia|]. rewrite zwrite_at by reflexivity. cbn [bind].
    rewrite lor_shiftl_add by lia. rewrite u8_id by lia.
    specialize (IH fuel s vs (hp ++ [c1; c2]) hrest (op ++ [v1 * 2 ^ 4 + v2]) q).
    rewrite <- !app_assoc in IH. cbn [app] in IH. zl. zpos.
    replace (zlen hp + 2) with (zlen hp + (1 + (1 + 0))) by lia.
    replace (zlen op + 1) with (zlen op + (1 + 0)) by lia.
    rewrite IH by (assumption || lia). cbn [pairs app]. do 4 f_equal.
    change (r :: q) with ([r] ++ q). rewrite zdrop_app2 by zlia. f_equal. zl. lia.
Qed.

Lemma hex2raw_ok s vs hrest dst : hextext s vs -> (zlen s + 1) / 2 <= zlen dst ->
  exists bs, hex2raw (s ++ 0 :: hrest) dst = Ret (zlen bs, bs ++ zdrop (zlen bs) dst) /\
    zlen bs = (zlen s + 1) / 2 /\ bytes bs /\ pos_value 256 bs = pos_value 16 vs.
Proof.
  intros HT HL. unfold hex2raw. rewrite strlen_0 by (eapply hextext_nz; eauto). cbn [bind].
  pose proof (hextext_len _ _ HT) as HLen. pose proof (hextext_digits _ _ HT) as HD. zpos. rewrite land_1.
  destruct (zlen s mod 2 =? 1) eqn:E2.
  - destruct HT as [|c v s vs Hcv HT]; [discriminate|]. destruct (hval_ok _ _ Hcv) as [E1 [N1 _]].
    apply Forall_cons_iff in HD as [Hv HD].
    cbn [app]. rewrite zread_cons0. cbn [bind]. destruct (zlen_cons_inv dst) as [r [q ->]]; [zl; zpos; lia|].
    change (zwrite (r :: q) 0) with (zwrite ([] ++ r :: q) 0). rewrite zwrite_at by reflexivity. cbn [bind app].
    rewrite E1, u8_id by lia. zl. zpos. set (n := Z.to_nat (zlen vs / 2)).
    pose proof (hex2raw_loop_ok n (S (length (c :: s ++ 0 :: hrest))) s vs [c] hrest [v] q) as EL.
    cbn [app] in EL. change (zlen [c]) with 1 in EL. change (zlen [v]) with 1 in EL.
    rewrite EL; [|assumption|lia|cbn [length]; rewrite app_length; unfold zlen in *; lia|lia]. clear EL. cbn [bind].
    exists (v :: pairs vs). zl. rewrite (pairs_len n) by lia. split; [|split; [lia|split]].
    + tup. cbn [app]. do 2 f_equal. change (r :: q) with ([r] ++ q). rewrite zdrop_app2 by zlia. f_equal. zl. lia.
    + apply bytes_cons. split; [unfold byte; lia|]. apply (pairs_bytes n); [lia|assumption].
    + cbn [pos_value]. rewrite (pairs_value n) by lia. rewrite (pairs_len n) by lia.
      replace (zlen vs) with (2 * Z.of_nat n) by lia. rewrite Z.pow_mul_r by lia. reflexivity.
  - cbn [bind]. set (n := Z.to_nat (zlen s / 2)).
    pose proof (hex2raw_loop_ok n (S (length (s ++ 0 :: hrest))) s vs [] hrest [] dst) as EL.
    cbn [app] in EL. change (zlen []) with 0 in EL.
    rewrite EL; [|assumption|lia|rewrite app_length; unfold zlen in *; lia|lia]. clear EL. cbn [bind].
    exists (pairs vs). rewrite (pairs_len n) by lia. split; [|split; [lia|split]].
    + tup.
    + apply (pairs_bytes n); [lia|assumption].
    + apply (pairs_value n). lia.
Qed.

Lemma hex_of_text x : bytes x -> hextext (hex_of x) (concat (map (fun b => [b / 16; b mod 16]) x)).
Proof.
  induction x as [|b x IH]; intros HB; [constructor|]. apply bytes_cons in HB as [Hb HB]. unfold byte in Hb.
  unfold hex_of. cbn [map concat app]. constructor; [split; [lia|auto]|]. constructor; [split; [lia|auto]|]. now apply IH.
Qed.
Lemma hex_of_len x : zlen (hex_of x) = 2 * zlen x.
Proof. induction x as [|b x IH]; [reflexivity|]. unfold hex_of in *. cbn [map concat app]. zl. lia. Qed.
Lemma nibbles_value x : bytes x -> pos_value 16 (concat (map (fun b => [b / 16; b mod 16]) x)) = pos_value 256 x /\
  zlen (concat (map (fun b => [b / 16; b mod 16]) x)) = 2 * zlen x.
Proof.
  induction x as [|b x IH]; intros HB; [split; reflexivity|]. apply bytes_cons in HB as [Hb HB]. unfold byte in Hb.
  destruct (IH HB) as [IH1 IH2]. cbn [map concat app pos_value]. zl. rewrite IH1, IH2. split; [|lia]. zpos.
  rewrite Z.pow_add_r, Z.pow_1_r, Z.pow_mul_r by lia. change (16 ^ 2) with 256. nia.
Qed.
Lemma hex_roundtrip x rest dst : bytes x -> zlen x <= zlen dst ->
  hex2raw (hex_of x ++ 0 :: rest) dst = Ret (zlen x, x ++ zdrop (zlen x) dst).
Proof.
  intros HB HL. destruct (hex2raw_ok _ _ rest dst (hex_of_text x HB)) as [bs [E [E1 [E2 E3]]]].
  - rewrite hex_of_len. lia.
  - rewrite hex_of_len in E1. destruct (nibbles_value x HB) as [N1 _].
    assert (bs = x) as ->; [|assumption]. apply (pos_value_inj 256); try assumption; try lia.
Qed.
