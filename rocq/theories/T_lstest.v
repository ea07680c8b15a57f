(** C103: the list tests of the library pass exactly when the memory they need is there. *)
From Verif Require Import Base M_sblist M_tglist M_tltest M_lstest S_lstest P_lstest.

(** sblist_test MAX BLOCKS: passes if every growth gets its memory; otherwise it aborts, never anything worse *)
Theorem c103_sblist_test : forall ds rnd dist al mx bl, 8 < ds -> (forall k, dist k <> None) -> 0 <= mx < 2 ^ 30 -> 1 <= bl < 2 ^ 31 -> (mx + bl) * ds < 2 ^ 64 ->
  (sblist_test ds rnd dist al mx (Some bl) = Ret true <-> forall m, 0 <= m < mx -> sblist_grows bl m -> al (Z.to_nat m) <> None) /\
  (sblist_test ds rnd dist al mx (Some bl) = Ret true \/ sblist_test ds rnd dist al mx (Some bl) = Ret false).
Proof.
  intros ds rnd dist al mx bl Hds Hd Hm Hb Hs. assert (Hz : zlen (zrepeat 0 ds) = ds) by (apply zlen_zrepeat; lia). unfold sblist_test.
  destruct (single_ok ds rnd dist al Hds Hd 0 (zrepeat 0 ds) mx bl 1 Hz Hb ltac:(lia) ltac:(nia)) as [(A & st' & -> & _)|(A & ->)]; rewrite Z.mul_1_r in A; cbn [bind].
  - split; [split; [intros _; exact A|reflexivity]|now left].
  - split; [split; [discriminate|intros B; exfalso; exact (A B)]|now right].
Qed.
Print Assumptions c103_sblist_test.

(** sblist_test MAX *)
Theorem c103_sblist_test_each : forall ds rnd dist al mx, 8 < ds -> (forall k, dist k <> None) -> (forall k, al k <> None) -> 0 <= mx * 10 < 2 ^ 30 -> (mx * 11 + 1) * ds < 2 ^ 64 ->
  sblist_test ds rnd dist al mx None = Ret true.
Proof.
  intros ds rnd dist al mx Hds Hd Ha Hm Hs. unfold sblist_test. destruct (each_ok ds rnd dist al Hds Hd Ha mx Hm Hs (S (Z.to_nat mx)) 0 (zrepeat 0 ds) 1) as (k' & st' & ->); [apply zlen_zrepeat; lia|lia|lia|lia|]. reflexivity.
Qed.
Print Assumptions c103_sblist_test_each.

(** the counter o_0 overflows with 2^30 items or more, and with a negative count, whatever the memory *)
Theorem c103_sblist_test_big_refuted : forall ds rnd dist al mx bl, 8 < ds -> (forall k, dist k <> None) -> mx < 0 \/ 2 ^ 30 <= mx -> 1 <= bl < 2 ^ 31 -> (2 ^ 30 + bl) * ds < 2 ^ 64 ->
  sblist_test ds rnd dist al mx (Some bl) = UB.
Proof.
  intros ds rnd dist al mx bl Hds Hd Hm Hb Hs. unfold sblist_test. rewrite single_big; [reflexivity|assumption|assumption|apply zlen_zrepeat; lia|assumption|lia|assumption].
Qed.
Print Assumptions c103_sblist_test_big_refuted.

(** tglist_test: without the memory it aborts or reads past the end of the list *)
Theorem c103_tglist_test : forall ds rnd dist al mx, 8 < ds -> (forall k, dist k <> None) -> 0 <= mx < 2 ^ 30 -> (2 * mx + 4) * ds < 2 ^ 64 ->
  (tglist_test ds rnd dist al mx = Ret true <-> forall m, 0 <= m < mx -> tglist_grows m -> al (Z.to_nat m) <> None) /\
  (tglist_test ds rnd dist al mx = Ret true \/ tglist_test ds rnd dist al mx = Ret false \/ tglist_test ds rnd dist al mx = UB).
Proof.
  intros ds rnd dist al mx Hds Hd Hm Hs. destruct (tgl_ok ds rnd dist al Hds Hd mx Hm Hs) as [(A & E)|(A & [E|E])]; rewrite E.
  - split; [split; [intros _; exact A|reflexivity]|auto].
  - split; [split; [discriminate|intros B; exfalso; exact (A B)]|auto].
  - split; [split; [discriminate|intros B; exfalso; exact (A B)]|auto].
Qed.
Print Assumptions c103_tglist_test.

(** unlike sblist_test it can do worse than abort: here no allocation succeeds *)
Theorem c103_tglist_test_no_memory_refuted : forall ds rnd dist mx, 8 < ds -> (forall k, dist k <> None) -> 1 <= mx < 2 ^ 30 ->
  tglist_test ds rnd dist (fun _ => None) mx = UB.
Proof.
  intros ds rnd dist mx Hds Hd Hm. unfold tglist_test. rewrite u64_id by lia.
  assert (L : forall n k o st, 0 <= o -> o + Z.of_nat n < 2 ^ 31 -> tadd_loop ds rnd dist (fun _ => None) n k o st tglist_init = Ret (st, tglist_init)).
  { induction n as [|n IH]; intros k o st O M; [reflexivity|]. cbn [tadd_loop]. rewrite int_r_ok by lia. cbn [bind]. change (tglist_prepare_addition ds None (@tglist_init (list Z))) with (0, @tglist_init (list Z)). cbn [Z.eqb negb]. apply IH; lia. }
  rewrite L by lia. cbn [bind]. destruct (Z.to_nat mx) as [|n] eqn:E; [lia|]. reflexivity.
Qed.
Print Assumptions c103_tglist_test_no_memory_refuted.

Theorem c103_tglist_test_big_refuted : forall ds rnd dist al mx, 8 < ds -> (forall k, dist k <> None) -> mx < 0 \/ 2 ^ 30 <= mx -> - 2 ^ 31 <= mx < 2 ^ 31 -> (2 * 2 ^ 30 + 4) * ds < 2 ^ 64 -> (forall k, al k <> None) ->
  tglist_test ds rnd dist al mx = UB.
Proof. intros ds rnd dist al mx Hds Hd Hm Hi Hs Ha. now apply tgl_big. Qed.
Print Assumptions c103_tglist_test_big_refuted.

(** sptrlist_test: 10 r items in blocks of r, for r from 1 to 9.  Round r begins after 5 r (r - 1) additions *)
Theorem c103_sptrlist_test : forall al,
  (sptrlist_test al 9 0 1 10 = Ret true <-> forall r m, 1 <= r <= 9 -> 0 <= m < 10 * r -> sblist_grows r m -> al (Z.to_nat (5 * r * (r - 1) + m)) <> None) /\
  (sptrlist_test al 9 0 1 10 = Ret true \/ sptrlist_test al 9 0 1 10 = Ret false \/ sptrlist_test al 9 0 1 10 = UB).
Proof.
  intros al. assert (W : sptr_mem al 0 1 10 <-> forall r m, 1 <= r <= 9 -> 0 <= m < 10 * r -> sblist_grows r m -> al (Z.to_nat (5 * r * (r - 1) + m)) <> None).
  { unfold sptr_mem, sblist_grows. split; intros H r m Hr Hm D; specialize (H r m ltac:(lia) ltac:(lia) D); [replace (5 * r * (r - 1) + m) with (5 * (r * (r - 1) - 1 * (1 - 1)) + m) by lia; exact H|].
    replace (5 * (r * (r - 1) - 1 * (1 - 1)) + m) with (5 * r * (r - 1) + m) by lia. exact H. }
  rewrite <- W. destruct (sptr_ok al 9 0 1 10 ltac:(lia) ltac:(lia) ltac:(lia) ltac:(lia) ltac:(lia)) as [(A & E)|(A & [E|E])]; rewrite E.
  - split; [split; [intros _; exact A|reflexivity]|auto].
  - split; [split; [discriminate|intros B; exfalso; exact (A B)]|auto].
  - split; [split; [discriminate|intros B; exfalso; exact (A B)]|auto].
Qed.
Print Assumptions c103_sptrlist_test.

(** 25 structs of 48 bytes; the random numbers and bytes vary *)
Example c103_ex :
  let rnd k := Z.of_nat k * 7919 + 13 in
  let dist k := Some (Z.of_nat k mod 256) in
  let mem := fun _ => 99 in
  let at_ j k := if Nat.eqb k j then None else Some mem in
  let tat j k := if Nat.eqb k j then None else Some (fun _ => @nil Z) in
  sblist_test 48 rnd dist (at_ 11%nat) 25 (Some 5) = Ret true /\
  sblist_test 48 rnd dist (at_ 10%nat) 25 (Some 5) = Ret false /\
  sblist_test 48 rnd dist (fun _ => Some mem) 4 None = Ret true /\
  tglist_test 48 rnd dist (tat 9%nat) 25 = Ret true /\
  tglist_test 48 rnd dist (tat 8%nat) 25 = Ret false /\
  tglist_test 48 rnd dist (fun k => if Nat.leb 16 k then None else Some (fun _ => [])) 25 = UB /\
  sptrlist_test (at_ 11%nat) 9 0 1 10 = Ret true /\
  sptrlist_test (at_ 12%nat) 9 0 1 10 = Ret false.
Proof. vm_compute. repeat split. Qed.
