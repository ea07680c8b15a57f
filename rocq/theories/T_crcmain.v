(** C91: examples/crc32_printer.c as a whole. *)
From Coq Require Import String.
From Verif Require Import Base M_crc32 P_crc32 M_ex M_crcmain S_crcmain P_crcmain.

(** C91: the selftests pass, and the checksums printed are those of the whole file, of any length; also if
    -1 is given as a count, or more arguments *)
Theorem c91_whole_file argc arg2 content res buf b1 b2 fuel : 2 <= argc -> (argc = 3 -> arg2 = -1) -> bytes content -> zlen res = 4 -> zlen buf = 65536 -> zlen b1 = 4 -> zlen b2 = 4 -> (length content < fuel)%nat ->
  exists t, crc_main fuel argc arg2 (Some content) res buf b1 b2 = Ret (Some t) /\ report content t.
Proof.
  intros A A3 B Lr Lb L1 L2 F. unfold crc_main. destruct (tests_ok res Lr) as (tc & ts & -> & -> & Hc & Hs & E1 & E2 & E3). cbn [bind]. rewrite E1. cbn [bind]. rewrite E2. cbn [bind]. rewrite E3. cbn [bind assert Z.eqb Pos.eqb].
  replace (argc <? 2) with false by lia. replace (if argc =? 3 then arg2 else -1) with (-1) by (destruct (Z.eqb_spec argc 3); [symmetry; auto|reflexivity]).
  rewrite (loop_all tc ts Hc Hs) by (assumption || (cbv; split; congruence || discriminate)). cbn [bind]. apply end_ok; assumption.
Qed.
Print Assumptions c91_whole_file.
(** C91: with a count N of 0..65536 they are those of the first N bytes *)
Theorem c91_first_bytes N content res buf b1 b2 fuel : 0 <= N <= 65536 -> bytes content -> zlen res = 4 -> zlen buf = 65536 -> zlen b1 = 4 -> zlen b2 = 4 ->
  exists t, crc_main (S fuel) 3 N (Some content) res buf b1 b2 = Ret (Some t) /\ report (ztake N content) t.
Proof.
  intros HN B Lr Lb L1 L2. unfold crc_main. destruct (tests_ok res Lr) as (tc & ts & -> & -> & Hc & Hs & E1 & E2 & E3). cbn [bind]. rewrite E1. cbn [bind]. rewrite E2. cbn [bind]. rewrite E3. cbn [bind assert Z.eqb Pos.eqb Z.ltb Z.compare Pos.compare Pos.compare_cont].
  rewrite (loop_some tc ts Hc Hs) by (assumption || lia || (cbv; split; congruence || discriminate)). rewrite u64_id by lia.
  replace (65536 <? zlen (ztake N content)) with false. 2:{ destruct (Z_le_dec (zlen content) N); [rewrite ztake_all by lia; lia|rewrite zlen_ztake by lia; lia]. }
  cbn [bind]. apply end_ok; try assumption. now apply bytes_ztake.
Qed.
Print Assumptions c91_first_bytes.
(** C91: a larger count, or a negative one other than -1, overruns the buffer if the file is longer *)
Theorem c91_overrun_refuted cnt content res buf b1 b2 fuel : - 2 ^ 31 <= cnt < 2 ^ 31 -> (65536 < cnt \/ cnt < -1) -> bytes content -> 65536 < zlen content -> zlen res = 4 -> zlen buf = 65536 ->
  crc_main (S fuel) 3 cnt (Some content) res buf b1 b2 = UB.
Proof.
  intros HN C B Lc Lr Lb. unfold crc_main. destruct (tests_ok res Lr) as (tc & ts & -> & -> & Hc & Hs & E1 & E2 & E3). cbn [bind]. rewrite E1. cbn [bind]. rewrite E2. cbn [bind]. rewrite E3. cbn [bind assert Z.eqb Pos.eqb Z.ltb Z.compare Pos.compare Pos.compare_cont].
  rewrite (loop_some tc ts Hc Hs) by (assumption || lia || (cbv; split; congruence || discriminate)).
  assert (U : 65536 < u64 cnt). { destruct C; [rewrite u64_id by lia; lia|]. unfold u64. replace (cnt mod 2 ^ 64) with (cnt + 2 ^ 64); [lia|]. symmetry. rewrite <- (Z.mod_small (cnt + 2 ^ 64) (2 ^ 64)) by lia. rewrite <- Zplus_mod_idemp_r. rewrite Z.mod_same by lia. now rewrite Z.add_0_r. }
  replace (65536 <? zlen (ztake (u64 cnt) content)) with true; [reflexivity|]. destruct (Z_le_dec (zlen content) (u64 cnt)); [rewrite ztake_all by lia; lia|rewrite zlen_ztake by lia; lia].
Qed.
Print Assumptions c91_overrun_refuted.
(** C91: without a file name the usage is printed after the selftests *)
Theorem c91_usage argc arg2 file res buf b1 b2 fuel : argc < 2 -> zlen res = 4 -> crc_main fuel argc arg2 file res buf b1 b2 = Ret None.
Proof.
  intros A Lr. unfold crc_main. destruct (tests_ok res Lr) as (tc & ts & -> & -> & Hc & Hs & E1 & E2 & E3). cbn [bind]. rewrite E1. cbn [bind]. rewrite E2. cbn [bind]. rewrite E3. cbn [bind assert Z.eqb Pos.eqb]. now replace (argc <? 2) with true by lia.
Qed.
Print Assumptions c91_usage.
(** C91: a file that cannot be opened is read through NULL *)
Theorem c91_no_file_refuted argc arg2 res buf b1 b2 fuel : 2 <= argc -> zlen res = 4 -> crc_main fuel argc arg2 None res buf b1 b2 = UB.
Proof.
  intros A Lr. unfold crc_main. destruct (tests_ok res Lr) as (tc & ts & -> & -> & Hc & Hs & E1 & E2 & E3). cbn [bind]. rewrite E1. cbn [bind]. rewrite E2. cbn [bind]. rewrite E3. cbn [bind assert Z.eqb Pos.eqb]. now replace (argc <? 2) with false by lia.
Qed.
Print Assumptions c91_no_file_refuted.
(** "abc": 364b3fb7, 352441c2, cadbbe3d; the bytes are printed from the lowest *)
Example c91_ex : crc_main 4 2 0 (Some [97; 98; 99]) [1; 2; 3; 4] (zrepeat 7 65536) [1; 2; 3; 4] [5; 6; 7; 8] =
  Ret (Some (text "CRC (castagnoli): b73f4b36" ++ [10] ++ text "CRC (standard)  : c2412435" ++ [10] ++ text "CRC (r4/jamcrc) : 3dbedbca" ++ [10])).
Proof. vm_compute. reflexivity. Qed.
