(** C105: the sha512 test program and crypto_hash. *)
From Verif Require Import Base Cstr M_hex S_hex M_sha512 S_hash S_sha512 M_stringptr M_spfile P_spfile M_shatest D_shatest P_shatest.

(** C105: crypto_hash, the one-shot version that the test compares with, is SHA-512 of the n
    bytes at m, whatever is in the local arrays; out may be longer than 64 bytes *)
Theorem c105_crypto_hash h x dst l q : zlen h = 64 -> zlen x = 256 -> 64 <= zlen dst -> bytes l -> zlen l < 2 ^ 64 ->
  crypto_hash h x dst (l ++ q) (zlen l) = Ret (sha512 l ++ zdrop 64 dst).
Proof. exact (crypto_hash_ok h x dst l q). Qed.
Print Assumptions c105_crypto_hash.
Example c105_crypto_hash_ex : match crypto_hash (zrepeat 5 64) (zrepeat 5 256) (zrepeat 5 65) (zrepeat 7 128 ++ [97; 98; 99; 1]) 131 with
  Ret h => (ztake 4 h, zdrop 62 h) | _ => ([], []) end = ([23; 58; 240; 160], [127; 234; 5]).
Proof. vm_compute. reflexivity. Qed.
(** sha512_to_str writes the lowercase hexadecimal digits and a NUL *)
Theorem c105_to_str x r dst : bytes x -> zlen x = 64 -> 129 <= zlen dst -> sha512_to_str (x ++ r) dst = Ret (hex_of x ++ 0 :: zdrop 129 dst).
Proof. exact (to_str_ok x r dst). Qed.
Print Assumptions c105_to_str.
Example c105_to_str_ex : match sha512_to_str (zrepeat 171 63 ++ [9; 77]) (zrepeat 5 130) with Ret d => (ztake 3 d, zdrop 125 d) | _ => ([], []) end = ([97; 98; 97], [98; 48; 57; 0; 5]).
Proof. vm_compute. reflexivity. Qed.
(** one iteration, with i = |l| and buf = l ++ x :: q: the three hashes are SHA-512 of the first i bytes *)
Theorem c105_step r j l x q h1 h2 h3 : sane j -> bytes l -> zlen l < 2 ^ 64 -> zlen h1 = 64 -> zlen h2 = 64 -> zlen h3 = 64 ->
  test_step r j (zlen l) (l ++ x :: q) h1 h2 h3 = Ret (l ++ Z.land r 255 :: q, sha512 l, sha512 l, sha512 l, true).
Proof. exact (step_ok r j l x q h1 h2 h3). Qed.
Print Assumptions c105_step.
(** the test finds no error, for every sequence of random numbers, every size of buf, every content
    of the uninitialised objects *)
Theorem c105_prefixes rnd junk buf h1 h2 h3 : (forall i, sane (junk i)) -> zlen buf < 2 ^ 64 -> zlen h1 = 64 -> zlen h2 = 64 -> zlen h3 = 64 ->
  test rnd junk buf h1 h2 h3 = Ret (0, []).
Proof. exact (test_ok rnd junk buf h1 h2 h3). Qed.
Print Assumptions c105_prefixes.
Example c105_prefixes_ex : test (fun i => 7 * i - 300) (fun i => mkLocals (zrepeat i 64) (zrepeat i 256) (mkCtx (zrepeat i 64) (zrepeat i 256) i)) (zrepeat 9 3) (zrepeat 1 64) (zrepeat 2 64) (zrepeat 3 64) = Ret (0, []).
Proof. vm_compute. reflexivity. Qed.
(** the comparisons would notice: memcmp of the first |a| bytes and strcmp tell equality *)
Theorem c105_memcmp a b q q' : length a = length b -> exists e, memeq (length a) (a ++ q) (b ++ q') 0 = Ret e /\ (e = true <-> a = b).
Proof. intros L. exact (memeq_ok a b [] [] q q' L eq_refl). Qed.
Print Assumptions c105_memcmp.
Theorem c105_strcmp a b q q' : nz a -> nz b -> exists e, cstreq (a ++ 0 :: q) (b ++ 0 :: q') = Ret e /\ (e = true <-> a = b).
Proof. exact (cstreq_ok a b q q'). Qed.
Print Assumptions c105_strcmp.
Example c105_compare_ex : memeq 3 [1; 0; 2; 5] [1; 0; 2; 6] 0 = Ret true /\ memeq 3 [1; 0; 2] [1; 0; 3] 0 = Ret false /\ cstreq [65; 0; 7] [65; 0] = Ret true /\ cstreq [65; 66; 0] [65; 0] = Ret false.
Proof. repeat split. Qed.
(** the file test: any non-empty file whose reads move whole blocks of 128 bytes or all that is
    asked for, whatever the reads of stringptr_fromfile do, gives the hash and exit code 0 *)
Theorem c105_file_partial rs1 rs2 junk content c buf hash1 hash2 h jh jx : Forall (whole 4096) rs1 -> Forall moves rs2 -> content <> [] -> bytes content -> zlen content < 2 ^ 64 - 17 ->
  zlen content < zlen rs1 -> zlen content <= zlen rs2 -> zlen buf = 4096 -> zlen (ch c) = 64 -> zlen (cx c) = 256 -> zlen hash1 = 129 -> zlen hash2 = 129 -> zlen h = 64 -> zlen jh = 64 -> zlen jx = 256 ->
  let r := test_file true true rs1 rs2 (zlen content) (Some junk) content c buf hash1 hash2 h jh jx in
  r = Ret (0, Hash (hex_of (sha512 content))) /\ sha_main 0 (Some r) = Ret 0 /\ sha_main 0 None = Ret 0 /\ sha_main 1 (Some r) = Ret 1.
Proof. intros. pose proof (file_ok rs1 rs2 junk content c buf hash1 hash2 h jh jx) as E. subst r. rewrite E by auto. repeat split. Qed.
Print Assumptions c105_file_partial.
Definition ex_file (rs1 rs2 : list io) (content : list Z) : out (Z * said) :=
  test_file true true rs1 rs2 (zlen content) (Some (fun _ => 5)) content (mkCtx (zrepeat 5 64) (zrepeat 5 256) 3) (zrepeat 6 4096) (zrepeat 5 129) (zrepeat 5 129) (zrepeat 5 64) (zrepeat 5 64) (zrepeat 5 256).
Example c105_file_ex : match ex_file [Xfer 128; Xfer 5000; Xfer 4096] [Xfer 1; Xfer 100; Xfer 200] (zrepeat 7 128 ++ [97; 98; 99]) with Ret (0, Hash s) => ztake 8 s | _ => [] end = [49; 55; 51; 97; 102; 48; 97; 48].
Proof. vm_compute. reflexivity. Qed.
(** what is missing: a read that stops in the middle of a block makes the program report an error
    that is not there *)
Theorem c105_file_short_read_refuted : exists rs1 rs2 content, Forall moves rs1 /\ Forall moves rs2 /\ zlen content < zlen rs1 /\ ex_file rs1 rs2 content = Ret (1, Complaint).
Proof.
  exists [Xfer 1; Xfer 1; Xfer 1], [Xfer 2; Xfer 1], [97; 98]. split; [repeat constructor; (eexists; split; [reflexivity|lia])|]. split; [repeat constructor; (eexists; split; [reflexivity|lia])|]. split; [reflexivity|]. vm_compute. reflexivity.
Qed.
Print Assumptions c105_file_short_read_refuted.
(** an empty file: NULL is dereferenced *)
Theorem c105_file_empty_refuted k rs1 opened2 rs2 mal c buf hash1 hash2 h jh jx : zlen (ch c) = 64 -> zlen (cx c) = 256 -> zlen hash1 = 129 ->
  test_file true opened2 (Xfer k :: rs1) rs2 0 mal [] c buf hash1 hash2 h jh jx = UB.
Proof. exact (file_empty k rs1 opened2 rs2 mal c buf hash1 hash2 h jh jx). Qed.
Print Assumptions c105_file_empty_refuted.
(** a file that is not there: the same *)
Theorem c105_file_missing_refuted rs1 rs2 mal content c buf hash1 hash2 h jh jx :
  test_file false false rs1 rs2 0 mal content c buf hash1 hash2 h jh jx = UB.
Proof. reflexivity. Qed.
Print Assumptions c105_file_missing_refuted.
