(** C45: MD5. *)
From Verif Require Import Base M_hex S_hex M_md5 S_hash S_md5 D_md5 P_md5run.

(** C45: in any sequence of md5_update and md5_end calls after md5_init, each md5_end writes
    the MD5 of the data given so far to the first 16 bytes of its destination, wherever the
    data is cut; later calls are not affected by an md5_end. *)
Theorem c45_md5 junk calls : zlen junk = 64 -> Forall call_ok calls ->
  md5_run junk calls = Ret (map (fun s => md5 (fst s) ++ zdrop 16 (snd s)) (seen [] calls)).
Proof. exact (run_ok junk calls). Qed.
Print Assumptions c45_md5.
(** "abc" in two chunks, with an md5_end ("a") in between *)
Example c45_ex : md5_run (zrepeat 5 64) [up [] [97] [1]; fin (zrepeat 5 64) (zrepeat 5 17); up [9] [98; 99] []; fin (zrepeat 5 64) (zrepeat 5 16)] =
  Ret [[0x0c;0xc1;0x75;0xb9;0xc0;0xf1;0xb6;0xa8;0x31;0xc3;0x99;0xe2;0x69;0x77;0x26;0x61;5];
       [0x90;0x01;0x50;0x98;0x3c;0xd2;0x4f;0xb0;0xd6;0x96;0x3f;0x7d;0x28;0xe1;0x7f;0x72]].
Proof. vm_compute. reflexivity. Qed.
Example c45_ex_spec : md5 [97; 98; 99] = [0x90;0x01;0x50;0x98;0x3c;0xd2;0x4f;0xb0;0xd6;0x96;0x3f;0x7d;0x28;0xe1;0x7f;0x72].
Proof. vm_compute. reflexivity. Qed.

(** C45: md5str writes the 32 lowercase hex digits of the digest and a terminator *)
Theorem c45_md5str junk junk2 raw dst p l q : zlen junk = 64 -> zlen junk2 = 64 -> zlen raw = 16 -> 33 <= zlen dst -> bytes l ->
  md5str (S (length l)) junk junk2 raw dst (p ++ l ++ q) (zlen p) (zlen l) = Ret (hex_of (md5 l) ++ 0 :: zdrop 33 dst).
Proof. exact (md5str_ok junk junk2 raw dst p l q). Qed.
Print Assumptions c45_md5str.
Example c45_md5str_ex : md5str 1 (zrepeat 5 64) (zrepeat 5 64) (zrepeat 5 16) (zrepeat 5 34) [] 0 0 =
  Ret [100;52;49;100;56;99;100;57;56;102;48;48;98;50;48;52;101;57;56;48;48;57;57;56;101;99;102;56;52;50;55;101;0;5].
Proof. vm_compute. reflexivity. Qed.
