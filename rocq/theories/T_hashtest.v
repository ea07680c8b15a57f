(** C106: the test programs of md5, md5str, rc4, crc32 and raw2hex. *)
From Coq Require Import String Ascii.
From Verif Require Import Base Bits Cstr M_hex S_hex P_hex M_md5 S_hash S_md5 M_rc4 S_rc4 M_crc32 S_saber M_shatest M_hashtest P_saber P_hashtest.

(** C106: what test() of md5_test.c and md5str_test.c decides, for every text and every expected string *)
Theorem c106_md5_check j1 j2 hash ascii l q e r : zlen j1 = 64 -> zlen j2 = 64 -> 16 <= zlen hash -> 33 <= zlen ascii -> bytes l -> nz e ->
  exists b, md5_check j1 j2 hash ascii (l ++ q) (zlen l) (e ++ 0 :: r) = Ret b /\ (b = true <-> e = hex_of (md5 l)).
Proof. exact (md5_check_ok j1 j2 hash ascii l q e r). Qed.
Print Assumptions c106_md5_check.
Theorem c106_md5str_check j1 j2 raw ascii l q e r : zlen j1 = 64 -> zlen j2 = 64 -> zlen raw = 16 -> 33 <= zlen ascii -> bytes l -> nz e ->
  exists b, md5str_check j1 j2 raw ascii (l ++ q) (zlen l) (e ++ 0 :: r) = Ret b /\ (b = true <-> e = hex_of (md5 l)).
Proof. exact (md5str_check_ok j1 j2 raw ascii l q e r). Qed.
Print Assumptions c106_md5str_check.
Example c106_md5_ex : let j := zrepeat 5 64 in
  md5_check j j (zrepeat 5 17) (zrepeat 5 33) (clit "abc") 3 (clit "900150983cd24fb0d6963f7d28e17f72") = Ret true /\
  md5_check j j (zrepeat 5 17) (zrepeat 5 33) (clit "abc") 2 (clit "900150983cd24fb0d6963f7d28e17f72") = Ret false /\
  md5str_check j j (zrepeat 5 16) (zrepeat 5 33) (clit "abc") 3 (clit "900150983cd24fb0d6963f7d28e17f73") = Ret false.
Proof. vm_compute. repeat split. Qed.
(** every assert of both programs holds, whatever the stack holds in each call *)
Theorem c106_md5_tests (j1 j2 hash raw ascii : Z -> list Z) : (forall i, zlen (j1 i) = 64 /\ zlen (j2 i) = 64 /\ zlen (hash i) = 17 /\ zlen (raw i) = 16 /\ zlen (ascii i) = 33) ->
  run_vectors (fun i => md5_check (j1 i) (j2 i) (hash i) (ascii i)) 0 md5_vectors = Ret [true; true; true] /\
  run_vectors (fun i => md5str_check (j1 i) (j2 i) (raw i) (ascii i)) 0 md5_vectors = Ret [true; true; true].
Proof.
  intros H. destruct md5_vectors_ok as [F1 F2].
  split; (apply (vectors_ok _ (fun a => hex_of (md5 a)) (fun v => bytes (fst v) /\ nz (snd v))); [|exact F1|exact F2]); intros i a b [Ba Nb]; cbn [fst snd] in *; destruct (H i) as (H1 & H2 & H3 & H4 & H5);
    [apply md5_check_ok|apply md5str_check_ok]; auto; lia.
Qed.
Print Assumptions c106_md5_tests.
Example c106_md5_tests_ex : let j := fun _ => zrepeat 5 64 in run_vectors (fun i => md5_check (j i) (j i) (zrepeat i 17) (zrepeat 5 33)) 0 ((lit "abc", lit "900150983cd24fb0d6963f7d28e17f73") :: (lit "abc", lit "900150983cd24fb0d6963f7d28e17f72") :: firstn 1 md5_vectors) = Ret [false; true; true].
Proof. vm_compute. reflexivity. Qed.

(** what test() of rc4_test.c decides, for texts of at most 2048 bytes *)
Theorem c106_rc4_check o hex key kr l q e r : nz key -> key <> [] -> bytes key -> zlen key < 18446744073709551615 -> bytes l -> bytes q -> bytes o -> zlen o = 2048 -> zlen hex = 4097 -> zlen l <= 2048 -> nz e ->
  exists b, rc4_check o hex (key ++ 0 :: kr) (l ++ q) (zlen l) (e ++ 0 :: r) = Ret b /\ (b = true <-> e = hex_of (xor_bytes l (keystream key (zlen l)))).
Proof. exact (rc4_check_ok o hex key kr l q e r). Qed.
Print Assumptions c106_rc4_check.
Example c106_rc4_ex : rc4_check (zrepeat 5 2048) (zrepeat 5 4097) (clit "Key") (clit "Plaintext") 9 (clit "bbf316e8d940af0ad3") = Ret true /\
  rc4_check (zrepeat 5 2048) (zrepeat 5 4097) (clit "Kez") (clit "Plaintext") 9 (clit "bbf316e8d940af0ad3") = Ret false.
Proof. vm_compute. split; reflexivity. Qed.
(** rc4_n is RC4 with the key schedule run n times; with one round it is rc4, for all arguments *)
Theorem c106_rc4_n mem d s len key keyrest n : key <> [] -> bytes key -> zlen key < 18446744073709551615 -> bytes mem ->
  0 <= len -> 0 <= d -> 0 <= s -> d + len <= zlen mem -> s + len <= zlen mem -> (d <= s \/ s + len <= d) ->
  rc4_n mem d s len (key ++ keyrest) (zlen key) n = Ret (ztake d mem ++ xor_bytes (ztake len (zdrop s mem)) (keystream_n key (Z.to_nat n) len) ++ zdrop (d + len) mem).
Proof. exact (rc4_n_ok mem d s len key keyrest n). Qed.
Print Assumptions c106_rc4_n.
Theorem c106_rc4_n_1 mem d s len key keylen : rc4_n mem d s len key keylen 1 = rc4 mem d s len key keylen.
Proof. exact (rc4_n_1 mem d s len key keylen). Qed.
Print Assumptions c106_rc4_n_1.
Example c106_rc4_n_ex : keystream_n [75; 101; 121] 1 4 = [235; 159; 119; 129] /\ keystream_n [75; 101; 121] 2 4 <> [235; 159; 119; 129] /\
  rc4_n [80; 108; 97; 105] 0 0 4 [75; 101; 121; 0] 3 2 = Ret (xor_bytes [80; 108; 97; 105] (keystream_n [75; 101; 121] 2 4)).
Proof. split; [vm_compute; reflexivity|]. split; [vm_compute; discriminate|vm_compute; reflexivity]. Qed.
(** ciphersaber_2_dec decrypts: for every key without NUL of less than 256 bytes, every vector, every text, every number of rounds *)
Theorem c106_ciphersaber iv dkey dst key kr w text n : zlen iv = 10 -> nz key -> bytes key -> zlen key < 256 -> zlen key + 10 <= zlen dkey -> zlen w = 10 -> bytes w -> bytes text -> bytes dst -> zlen text <= zlen dst -> 0 <= n ->
  let m := saber (Z.to_nat n) key w text in ciphersaber_2_dec iv dkey dst m (zlen m) (key ++ 0 :: kr) n = Ret (text ++ zdrop (zlen text) dst).
Proof. exact (saber_dec iv dkey dst key kr w text n). Qed.
Print Assumptions c106_ciphersaber.
Theorem c106_ciphersaber_1 iv dkey dst cmsg clen key : ciphersaber_1_dec iv dkey dst cmsg clen key = ciphersaber_2_dec iv dkey dst cmsg clen key 1.
Proof. exact (saber1_is_2 iv dkey dst cmsg clen key). Qed.
Print Assumptions c106_ciphersaber_1.
(** without argument all asserts hold; with one, the argument is printed encrypted and the others hold *)
Theorem c106_rc4_main_partial (o1 hex : Z -> list Z) iv dk jm jp arg : (forall i, bytes (o1 i) /\ zlen (o1 i) = 2048 /\ zlen (hex i) = 4097) -> zlen iv = 10 -> 15 <= zlen dk -> 42 <= zlen jm -> 32 <= zlen jp -> bytes jp ->
  rc4_main o1 hex iv dk jm jp None = Ret ([], [true; true; true; true]) /\
  forall a ar, arg = a ++ 0 :: ar -> nz a -> bytes a -> bytes ar -> zlen a < 2048 ->
    rc4_main o1 hex iv dk jm jp (Some arg) = Ret (xor_bytes a (keystream (lit "just for test") (zlen a)), [true; true]).
Proof.
  intros H Li Ld Lm Lp Bp. unfold rc4_main. rewrite saber1_ok, saber2_ok by (auto; lia). split.
  - destruct rc4_vectors_ok as [F1 F2]. destruct pw_ok as (Np & Pne & Bpw & Lpw & Ep).
    assert (V : run_vectors (fun i => rc4_check (o1 i) (hex i) password) 0 rc4_vectors = Ret (map (fun _ => true) rc4_vectors)); [|rewrite V; reflexivity].
    apply (vectors_ok _ (fun a => hex_of (xor_bytes a (keystream pw (zlen a)))) (fun v => bytes (fst v) /\ zlen (fst v) <= 2048 /\ nz (snd v))); [|exact F1|exact F2].
    intros i a b (Ba & La & Nb). cbn [fst snd] in *. destruct (H i) as (H1 & H2 & H3). rewrite Ep. apply rc4_check_ok; auto. constructor; [unfold byte; lia|constructor].
  - intros a ar -> Na Ba Bar La. destruct (H 0) as (H1 & H2 & _). rewrite rc4_arg_ok by auto. reflexivity.
Qed.
Print Assumptions c106_rc4_main_partial.
(** what is missing: an argument of 2048 bytes or more overflows out *)
Theorem c106_rc4_main_long_refuted (o1 hex : Z -> list Z) iv dk jm jp a ar : bytes (o1 0) -> zlen (o1 0) = 2048 -> nz a -> bytes a -> bytes ar -> 2048 <= zlen a ->
  rc4_main o1 hex iv dk jm jp (Some (a ++ 0 :: ar)) = UB.
Proof. intros B L Na Ba Bar La. unfold rc4_main. now rewrite rc4_arg_long by auto. Qed.
Print Assumptions c106_rc4_main_long_refuted.
Example c106_rc4_main_ex : let j := fun _ => zrepeat 5 2048 in let h := fun _ => zrepeat 6 4097 in
  rc4_main j h (zrepeat 5 10) (zrepeat 6 15) (zrepeat 7 42) (zrepeat 8 32) (Some (clit "just")) = Ret ([211; 195; 152; 97], [true; true]).
Proof. vm_compute. reflexivity. Qed.

(** both variants of crc32_test.c *)
Theorem c106_crc_tests val : zlen val = 4 -> crc_test POLY32 val = Ret true /\ crc_test POLY32C val = Ret true.
Proof. exact (crc_ok val). Qed.
Print Assumptions c106_crc_tests.
Example c106_crc_ex : crc_test 1 [0; 0; 0; 0] = Ret false.
Proof. vm_compute. reflexivity. Qed.
(** raw2hex_test.c: 0 of 3 tests fail *)
Theorem c106_raw2hex_tests buf : zlen buf = 33 -> hex_tests buf hex_vectors 0 0 = Ret (0, 3).
Proof.
  intros L. rewrite hex_tests_ok; [reflexivity|]. rewrite L. repeat constructor; cbn [fst snd]; try (apply okb_bytes; reflexivity); try reflexivity; intros X; discriminate X.
Qed.
Print Assumptions c106_raw2hex_tests.
Example c106_raw2hex_ex : hex_tests (zrepeat 5 33) (([1; 2], lit "0103") :: hex_vectors) 0 0 = Ret (1, 4).
Proof. vm_compute. reflexivity. Qed.
