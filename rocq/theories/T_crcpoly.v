(** C111: what the checksums of crc32.c and crc32c.c detect. *)
From Verif Require Import Base Bits M_crc32 S_crc32 D_crc32 S_crcpoly P_crc32 P_crcpoly.

Definition data (calls : list (list Z * list Z * list Z)) : list Z := concat (map chunk calls).
Lemma run32_ok calls u : Forall (fun c => bytes (chunk c)) calls -> zlen u = 4 ->
  exists c, crc_run POLY32 u calls = Ret c /\ zlen c = 4 /\ bytes c /\ wire_bits c = crc POLY32 (data calls).
Proof. intros F L. destruct gen32 as [G R]. destruct (run_ok POLY32 RP32 calls u [] check32 G R F L) as (c & H). rewrite !app_nil_r in H. now exists c. Qed.
Lemma run32c_ok calls u : Forall (fun c => bytes (chunk c)) calls -> zlen u = 4 ->
  exists c, crc_run POLY32C u calls = Ret c /\ zlen c = 4 /\ bytes c /\ wire_bits c = crc POLY32C (data calls).
Proof. intros F L. destruct gen32c as [G R]. destruct (run_ok POLY32C RP32C calls u [] check32c G R F L) as (c & H). rewrite !app_nil_r in H. now exists c. Qed.
Lemma bytes_data calls : Forall (fun c => bytes (chunk c)) calls -> bytes (data calls).
Proof. unfold data. induction 1; cbn [map concat]; [constructor|]. now apply bytes_app. Qed.
Lemma top32 : Z.testbit RP32 31 = true. Proof. reflexivity. Qed.
Lemma top32c : Z.testbit RP32C 31 = true. Proof. reflexivity. Qed.

(** two messages that differ only within 32 consecutive bits (in transmission order) get different
    checksums, whatever the chunks *)
Theorem c111_crc32_burst calls1 calls2 u1 u2 p x y s :
  Forall (fun c => bytes (chunk c)) calls1 -> Forall (fun c => bytes (chunk c)) calls2 -> zlen u1 = 4 -> zlen u2 = 4 ->
  wire_bits (data calls1) = p ++ x ++ s -> wire_bits (data calls2) = p ++ y ++ s -> length x = length y -> (length x <= 32)%nat -> x <> y ->
  crc_run POLY32 u1 calls1 <> crc_run POLY32 u2 calls2.
Proof.
  intros F1 F2 L1 L2 W1 W2 L B N E. destruct (run32_ok calls1 u1 F1 L1) as (c1 & E1 & _ & _ & C1). destruct (run32_ok calls2 u2 F2 L2) as (c2 & E2 & _ & _ & C2).
  rewrite E1, E2 in E. injection E as ->. rewrite C1 in C2. unfold crc in C2. rewrite W1, W2 in C2. apply (f_equal (map negb)) in C2. rewrite !negb_twice in C2.
  destruct gen32 as [G R]. exact (burst POLY32 RP32 G R top32 p x y s L B N C2).
Qed.
Theorem c111_crc32c_burst calls1 calls2 u1 u2 p x y s :
  Forall (fun c => bytes (chunk c)) calls1 -> Forall (fun c => bytes (chunk c)) calls2 -> zlen u1 = 4 -> zlen u2 = 4 ->
  wire_bits (data calls1) = p ++ x ++ s -> wire_bits (data calls2) = p ++ y ++ s -> length x = length y -> (length x <= 32)%nat -> x <> y ->
  crc_run POLY32C u1 calls1 <> crc_run POLY32C u2 calls2.
Proof.
  intros F1 F2 L1 L2 W1 W2 L B N E. destruct (run32c_ok calls1 u1 F1 L1) as (c1 & E1 & _ & _ & C1). destruct (run32c_ok calls2 u2 F2 L2) as (c2 & E2 & _ & _ & C2).
  rewrite E1, E2 in E. injection E as ->. rewrite C1 in C2. unfold crc in C2. rewrite W1, W2 in C2. apply (f_equal (map negb)) in C2. rewrite !negb_twice in C2.
  destruct gen32c as [G R]. exact (burst POLY32C RP32C G R top32c p x y s L B N C2).
Qed.
(** in particular when at most four consecutive bytes differ *)
Theorem c111_crc32_four_bytes p x y s u1 u2 : bytes p -> bytes x -> bytes y -> bytes s -> zlen x = zlen y -> zlen x <= 4 -> x <> y -> zlen u1 = 4 -> zlen u2 = 4 ->
  crc_run POLY32 u1 [([], p ++ x ++ s, [])] <> crc_run POLY32 u2 [([], p ++ y ++ s, [])] /\
  crc_run POLY32C u1 [([], p ++ x ++ s, [])] <> crc_run POLY32C u2 [([], p ++ y ++ s, [])].
Proof.
  intros Bp Bx By Bs L H N L1 L2.
  assert (D : forall l, data [([], l, [])] = l) by (intros l; unfold data; cbn [map concat chunk fst snd]; apply app_nil_r).
  assert (F : forall l, bytes l -> Forall (fun c => bytes (chunk c)) [([] : list Z, l, [] : list Z)]) by (intros l Hl; repeat constructor; exact Hl).
  assert (B1 : bytes (p ++ x ++ s)) by (rewrite !bytes_app; auto). assert (B2 : bytes (p ++ y ++ s)) by (rewrite !bytes_app; auto).
  assert (Lx : length (wire_bits x) = length (wire_bits y)) by (rewrite !wire_length; unfold zlen in L; lia).
  assert (Lm : (length (wire_bits x) <= 32)%nat) by (rewrite wire_length; unfold zlen in H; lia).
  assert (Nw : wire_bits x <> wire_bits y) by (intros E; apply N; now apply wire_inj).
  split; [eapply c111_crc32_burst|eapply c111_crc32c_burst]; eauto; rewrite D, !wire_app; reflexivity.
Qed.
(** the number of ones: with CRC32C the checksum has the parity of the message, so that inverting an odd
    number of bits anywhere is detected *)
Theorem c111_crc32c_parity calls u c : Forall (fun c => bytes (chunk c)) calls -> zlen u = 4 -> crc_run POLY32C u calls = Ret c ->
  parity (wire_bits c) = parity (wire_bits (data calls)).
Proof. intros F L E. destruct (run32c_ok calls u F L) as (c' & E' & _ & _ & W). rewrite E in E'. injection E' as ->. rewrite W. apply crc_parity. reflexivity. Qed.
(** not so with CRC32: these two messages differ in 15 bits *)
Theorem c111_crc32_parity_refuted : let a := [0; 0; 0; 0; 0] in let b := [0x41; 0x06; 0x71; 0xDB; 0x01] in
  parity (wire_bits a) = false /\ parity (wire_bits b) = true /\ crc_run POLY32 [0;0;0;0] [([], a, [])] = crc_run POLY32 [0;0;0;0] [([], b, [])].
Proof. cbv zeta. vm_compute. auto. Qed.
(** include/crc32_impl.h 40-46 (CRC32[C]_Final): message and checksum, as a bit string, are a multiple of the
    polynomial once the first and the last 32 bits are inverted *)
Theorem c111_final_partial calls u c : Forall (fun c => bytes (chunk c)) calls -> zlen u = 4 ->
  (crc_run POLY32 u calls = Ret c -> multiple 0x04C11DB7 (flip_first (flip_last (wire_bits (data calls ++ c))))) /\
  (crc_run POLY32C u calls = Ret c -> multiple 0x1EDC6F41 (flip_first (flip_last (wire_bits (data calls ++ c))))).
Proof.
  intros F L. split; intros E; [destruct (run32_ok calls u F L) as (c' & E' & _ & _ & W)|destruct (run32c_ok calls u F L) as (c' & E' & _ & _ & W)];
    rewrite E in E'; injection E' as ->; rewrite wire_app, W; apply crc_multiple; reflexivity.
Qed.
(** the comment says instead: a one, the message and the checksum.  False already for the empty message *)
Theorem c111_final_comment_refuted u : zlen u = 4 ->
  exists c, crc_run POLY32C u [] = Ret c /\ ~ multiple 0x1EDC6F41 (true :: wire_bits (data [] ++ c)) /\
            crc_run POLY32 u [] = Ret c /\ ~ multiple 0x04C11DB7 (true :: wire_bits (data [] ++ c)).
Proof.
  intros L. assert (F : Forall (fun c : list Z * list Z * list Z => bytes (chunk c)) []) by constructor.
  assert (Z0 : forall c, zlen c = 4 -> bytes c -> wire_bits c = repeat false 32 -> c = [0;0;0;0]).
  { intros c Lc Bc W. apply wire_inj; [exact Bc|repeat constructor; unfold byte; lia|]. rewrite W. reflexivity. }
  destruct (run32c_ok [] u F L) as (c & E & Lc & B & W). destruct (run32_ok [] u F L) as (c2 & E2 & Lc2 & B2 & W2).
  assert (c = [0;0;0;0]) by (apply Z0; auto). assert (c2 = [0;0;0;0]) by (apply Z0; auto). subst c c2.
  exists [0;0;0;0]. split; [exact E|]. split; [|split; [exact E2|]]; change (data [] ++ [0;0;0;0]) with [0;0;0;0]; change (wire_bits [0;0;0;0]) with (repeat false 32); apply pow_no_multiple; lia.
Qed.
(** the checksum of a message followed by its checksum is always the same *)
Theorem c111_residue calls calls2 u u2 c : Forall (fun c => bytes (chunk c)) calls -> Forall (fun c => bytes (chunk c)) calls2 -> zlen u = 4 -> zlen u2 = 4 -> data calls2 = data calls ++ c ->
  (crc_run POLY32 u calls = Ret c -> crc_run POLY32 u2 calls2 = Ret [0x1C; 0xDF; 0x44; 0x21]) /\
  (crc_run POLY32C u calls = Ret c -> crc_run POLY32C u2 calls2 = Ret [0xC7; 0x4B; 0x67; 0x48]).
Proof.
  intros F F2 L L2 D. assert (X : forall a l, zlen a = 4 -> bytes a -> bytes l -> wire_bits a = wire_bits l -> a = l) by (intros; now apply wire_inj).
  split; intros E.
  - destruct (run32_ok calls u F L) as (c' & E' & _ & B & W). rewrite E in E'. injection E' as <-. destruct (run32_ok calls2 u2 F2 L2) as (c2 & E2 & Lc & B2 & W2). rewrite E2. f_equal.
    apply X; auto; [repeat constructor; unfold byte; lia|]. rewrite W2, D. destruct gen32 as [G R]. rewrite (residue POLY32 RP32 G R _ _ B W). vm_compute. reflexivity.
  - destruct (run32c_ok calls u F L) as (c' & E' & _ & B & W). rewrite E in E'. injection E' as <-. destruct (run32c_ok calls2 u2 F2 L2) as (c2 & E2 & Lc & B2 & W2). rewrite E2. f_equal.
    apply X; auto; [repeat constructor; unfold byte; lia|]. rewrite W2, D. destruct gen32c as [G R]. rewrite (residue POLY32C RP32C G R _ _ B W). vm_compute. reflexivity.
Qed.
(** no protection against intent: four more bytes give any message any checksum *)
Theorem c111_any_checksum d c u : bytes d -> bytes c -> zlen c = 4 -> zlen u = 4 ->
  (exists x, zlen x = 4 /\ bytes x /\ crc_run POLY32 u [([], d ++ x, [])] = Ret c) /\ (exists x, zlen x = 4 /\ bytes x /\ crc_run POLY32C u [([], d ++ x, [])] = Ret c).
Proof.
  intros Bd Bc Lc L. assert (T : length (wire_bits c) = 32%nat) by (rewrite wire_length; unfold zlen in Lc; lia).
  assert (D : forall l, data [([], l, [])] = l) by (intros l; unfold data; cbn [map concat chunk fst snd]; apply app_nil_r).
  split.
  - destruct gen32 as [G R]. destruct (forge POLY32 RP32 G R top32 d (wire_bits c) T) as (x & Lx & Bx & E). exists x. split; [exact Lx|]. split; [exact Bx|].
    assert (F : Forall (fun c => bytes (chunk c)) [([] : list Z, d ++ x, [] : list Z)]) by (repeat constructor; apply bytes_app; auto).
    destruct (run32_ok _ u F L) as (c' & E' & _ & B & W). rewrite E'. f_equal. apply wire_inj; auto. now rewrite W, D, E.
  - destruct gen32c as [G R]. destruct (forge POLY32C RP32C G R top32c d (wire_bits c) T) as (x & Lx & Bx & E). exists x. split; [exact Lx|]. split; [exact Bx|].
    assert (F : Forall (fun c => bytes (chunk c)) [([] : list Z, d ++ x, [] : list Z)]) by (repeat constructor; apply bytes_app; auto).
    destruct (run32c_ok _ u F L) as (c' & E' & _ & B & W). rewrite E'. f_equal. apply wire_inj; auto. now rewrite W, D, E.
Qed.
Print Assumptions c111_crc32_burst.
Print Assumptions c111_crc32c_burst.
Print Assumptions c111_crc32_four_bytes.
Print Assumptions c111_crc32c_parity.
Print Assumptions c111_crc32_parity_refuted.
Print Assumptions c111_final_partial.
Print Assumptions c111_final_comment_refuted.
Print Assumptions c111_residue.
Print Assumptions c111_any_checksum.
(** "123456789", in two chunks, then followed by its checksum; and one bit changed *)
Example c111_ex : crc_run POLY32 [9;9;9;9] [([], [49;50;51;52;53;54;55;56;57], []); ([], [0x26;0x39;0xF4;0xCB], [])] = Ret [0x1C; 0xDF; 0x44; 0x21] /\
  crc_run POLY32 [0;0;0;0] [([], [49;50;51;52;53;54;55;56;57], [])] = Ret [0x26;0x39;0xF4;0xCB] /\
  crc_run POLY32 [0;0;0;0] [([], [49;50;51;52;53;54;55;56;56], [])] = Ret [0xB0;0x09;0xF3;0xBC].
Proof. vm_compute. auto. Qed.
Example c111_ex_multiple : poly [true; false; true] = pmul [true; true] 3.
Proof. reflexivity. Qed.
