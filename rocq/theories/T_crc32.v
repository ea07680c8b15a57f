(** C44: CRC32 and CRC32C. *)
From Verif Require Import Base M_crc32 S_crc32 D_crc32 P_crc32.

(** C44: any chunking, each chunk anywhere in its buffer; cbuf: the first four bytes are
    written, the rest is left alone *)
Theorem c44_crc32 calls u v : Forall (fun c => bytes (chunk c)) calls -> zlen u = 4 ->
  exists c, crc_run POLY32 (u ++ v) calls = Ret (c ++ v) /\ zlen c = 4 /\ bytes c /\
            wire_bits c = crc 0x04C11DB7 (concat (map chunk calls)).
Proof. intros F L. destruct gen32 as [G R]. exact (run_ok POLY32 RP32 calls u v check32 G R F L). Qed.
Theorem c44_crc32c calls u v : Forall (fun c => bytes (chunk c)) calls -> zlen u = 4 ->
  exists c, crc_run POLY32C (u ++ v) calls = Ret (c ++ v) /\ zlen c = 4 /\ bytes c /\
            wire_bits c = crc 0x1EDC6F41 (concat (map chunk calls)).
Proof. intros F L. destruct gen32c as [G R]. exact (run_ok POLY32C RP32C calls u v check32c G R F L). Qed.
Print Assumptions c44_crc32.
Print Assumptions c44_crc32c.
(** the check values of "123456789", given in two chunks *)
Example c44_ex : crc_run POLY32 [0;0;0;0] [([], [49;50;51;52;53], [7]); ([9;9], [54;55;56;57], [])] = Ret [0x26;0x39;0xF4;0xCB].
Proof. vm_compute. reflexivity. Qed.
Example c44_ex_c : crc_run POLY32C [0;0;0;0] [([], [49;50;51;52;53], [7]); ([9;9], [54;55;56;57], [])] = Ret [0x83;0x92;0x06;0xE3].
Proof. vm_compute. reflexivity. Qed.
Example c44_ex_spec : crc 0x04C11DB7 [49;50;51;52;53;54;55;56;57] = wire_bits [0x26;0x39;0xF4;0xCB].
Proof. vm_compute. reflexivity. Qed.
