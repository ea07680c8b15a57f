(** C109, C110: what the checks of two test programs can tell apart.  C120: le32 of an int. *)
From Verif Require Import Base M_ip M_strtest M_guard M_guardtest M_endianbe.

(** the address check of ipv4fromstring_test.c holds for the expected four bytes and no others *)
Theorem c109_ip_check a b c d w : zlen w = 4 -> ip_is [a; b; c; d] w = Ret true <-> w = [a; b; c; d].
Proof.
  intros L. destruct w as [|w0 [|w1 [|w2 [|w3 [|w4 w]]]]]; zl; try (pose proof (zlen_nonneg w)); try lia.
  change (ip_is [a; b; c; d] [w0; w1; w2; w3]) with (Ret ((a =? w0) && (b =? w1) && (c =? w2) && (d =? w3))). split.
  - intros H. injection H as H. repeat (apply andb_prop in H as [H ?]). repeat match goal with H : (_ =? _) = true |- _ => apply Z.eqb_eq in H; subst end. reflexivity.
  - intros [= -> -> -> ->]. rewrite !Z.eqb_refl. reflexivity.
Qed.
Print Assumptions c109_ip_check.
Example c109_ip_check_ex : ip_is [10; 0; 0; 2] [10; 0; 0; 1] = Ret false.
Proof. reflexivity. Qed.

(** the child of guard_test.c ends with signal 11 unless the byte is writable, and with 0 if it is *)
Theorem c110_child ps v a : (child ps v a = 11 <-> v (a / ps) <> ReadWrite) /\ (child ps v a = 0 <-> v (a / ps) = ReadWrite).
Proof. unfold child, SIGSEGV. destruct (v (a / ps)); repeat split; intros; try lia; try congruence. Qed.
Print Assumptions c110_child.
Example c110_child_ex : child 4096 (fun p => if p =? 1 then ReadWrite else Unmapped) 8191 = 0 /\ child 4096 (fun p => if p =? 1 then ReadWrite else Unmapped) 8192 = 11.
Proof. split; reflexivity. Qed.

(** le32 of any int on a little-endian machine is that int converted to unsigned int *)
Theorem c120_le32_int_le x : le32_int false x = Ret (x mod 2 ^ 32).
Proof. reflexivity. Qed.
Print Assumptions c120_le32_int_le.
Example c120_le32_int_le_ex : le32_int false (-2) = Ret 4294967294.
Proof. reflexivity. Qed.
