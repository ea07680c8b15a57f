(** Model of tests/md5_test.c, tests/md5str_test.c, tests/rc4_test.c, tests/crc32_test.c and
    tests/raw2hex_test.c.

    The contents of uninitialised local arrays are arguments.  [lit] is the text of a string
    literal without its NUL.  A test that compares with strcmp or memcmp is the truth value of
    "they are equal"; the programs are the lists of these values, in order. *)
From Coq Require Import String Ascii.
From Verif Require Import Base Cstr M_hex M_md5 M_rc4 M_crc32 M_shatest.

Definition lit (s : string) : list Z := map (fun c => Z.of_N (N_of_ascii c)) (list_ascii_of_string s).
(** the bytes of the array that the literal denotes *)
Definition clit (s : string) : list Z := lit s ++ [0].

(** md5_test.c 6-13 *)
Definition md5_to_str (hash dst : list Z) : out (list Z) := to_str_loop 16 0 hash dst.
(** md5_test.c 15-24; j1, j2: the buffers inside md5; hash, ascii: the local arrays *)
Definition md5_check (j1 j2 hash ascii buf : list Z) (len : Z) (expected : list Z) : out bool :=
  let m := md5_init j1 in
  let* m := md5_update (S (Z.to_nat len)) m buf 0 len in
  let* hash := md5_end j2 m hash in
  let* ascii := md5_to_str hash ascii in
  cstreq ascii expected.
(** md5str_test.c 6-10; raw: the array inside md5str *)
Definition md5str_check (j1 j2 raw ascii buf : list Z) (len : Z) (expected : list Z) : out bool :=
  let* ascii := md5str (S (Z.to_nat len)) j1 j2 raw ascii buf 0 len in
  cstreq ascii expected.
(** md5_test.c 29-31, md5str_test.c 15-17: A and B of each TESTA(A, B) *)
Definition md5_vectors : list (list Z * list Z) :=
  [(lit "", lit "d41d8cd98f00b204e9800998ecf8427e"); (lit "foo bar", lit "327b6f07435811239bc47e1544353273");
   (lit "password", lit "5f4dcc3b5aa765d61d8327deb882cf99")].
(** assert(0 == test(A, sizeof(A)-1, B)) for each; check gets the number of the call, the arrays
    A and B and sizeof(A)-1 *)
Fixpoint run_vectors (check : Z -> list Z -> Z -> list Z -> out bool) (i : Z) (vs : list (list Z * list Z)) : out (list bool) :=
  match vs with
  | [] => Ret []
  | (a, b) :: vs => let* e := check i (a ++ [0]) (zlen a) (b ++ [0]) in let* es := run_vectors check (i + 1) vs in Ret (e :: es)
  end.

(** rc4_test.c 8-14; out2048, hex: the local arrays; key: the bytes at key, with the NUL *)
Definition rc4_check (out2048 hex key buf : list Z) (len : Z) (expected : list Z) : out bool :=
  let* keylen := strlen key 0 in
  let* mem := rc4 (buf ++ out2048) (zlen buf) 0 len key keylen in
  let* hex := raw2hex hex (zdrop (zlen buf) mem) len in
  cstreq hex expected.
(** rc4_test.c 23-27; n iterations left; the result is box and y *)
Fixpoint rc4n_ksa (n : nat) (box key : list Z) (x y z keylen : Z) : out (list Z * Z) :=
  match n with
  | O => Ret (box, y)
  | S n =>
    let* bx := zread box x in
    let* k := zread key z in
    let y := u64 (y + bx + k) mod 256 in
    let* box := swap box x y in
    rc4n_ksa n box key (x + 1) y (if u64 (z + 1) =? keylen then 0 else u64 (z + 1)) keylen
  end.
(** rc4_test.c 22-28; rounds left *)
Fixpoint rc4n_rounds (rounds : nat) (box key : list Z) (y keylen : Z) : out (list Z) :=
  match rounds with
  | O => Ret box
  | S rounds => let* (box, y) := rc4n_ksa 256 box key 0 y 0 keylen in rc4n_rounds rounds box key y keylen
  end.
(** rc4_test.c 17-35; the last loop is that of rc4.c *)
Definition rc4_n (mem : list Z) (dst src len : Z) (key : list Z) (keylen rounds : Z) : out (list Z) :=
  let* box := rc4n_rounds (Z.to_nat rounds) box0 key 0 keylen in
  rc4_prga (Z.to_nat len) box mem dst src 0 0 0.
(** rc4_test.c 37-47 and 59-69: iv, strlen(key) and dec_key; a failing assert is UB.  iv and dkey:
    the arrays, dkey of size l + 10. *)
Definition dec_key (iv dkey : list Z) (cmsg key : list Z) (clen : Z) : out (list Z * Z) :=
  if 10 <=? clen then
    let* d := zreads cmsg 0 10 in
    let* iv := zwrites iv 0 d in
    let* l := strlen key 0 in
    if l <? 256 then
      let dkey := ztake (l + 10) dkey in
      let* d := zreads key 0 l in
      let* dkey := zwrites dkey 0 d in
      let* d := zreads iv 0 10 in
      let* dkey := zwrites dkey l d in
      Ret (dkey, l)
    else UB
  else UB.
(** rc4_test.c 59-69: the bytes of out *)
Definition ciphersaber_1_dec (iv dkey dst cmsg : list Z) (clen : Z) (key : list Z) : out (list Z) :=
  let* (dkey, l) := dec_key iv dkey cmsg key clen in
  let* mem := rc4 (cmsg ++ dst) (zlen cmsg) 10 (clen - 10) dkey (l + 10) in
  Ret (zdrop (zlen cmsg) mem).
(** rc4_test.c 37-47 *)
Definition ciphersaber_2_dec (iv dkey dst cmsg : list Z) (clen : Z) (key : list Z) (n : Z) : out (list Z) :=
  let* (dkey, l) := dec_key iv dkey cmsg key clen in
  let* mem := rc4_n (cmsg ++ dst) (zlen cmsg) 10 (clen - 10) dkey (l + 10) n in
  Ret (zdrop (zlen cmsg) mem).
(** rc4_test.c 49-57 and 71-79: both asserts.  jm, jp: the arrays cmsg and plainmsg of any size; they
    are cut to the declared size. *)
Definition saber_test (dec : list Z -> list Z -> Z -> out (list Z)) (jm jp hmsg plain : list Z) : out bool :=
  let n := zlen hmsg / 2 in
  let* (r, cmsg) := hex2raw (hmsg ++ [0]) (ztake n jm) in
  if negb (r =? n) then Ret false
  else
    let* p := dec (ztake (n - 10) jp) cmsg n in
    memeq (length plain) p plain 0.
Definition ciphersaber_1_test (iv dkey jm jp : list Z) : out bool :=
  saber_test (fun dst cmsg n => ciphersaber_1_dec iv dkey dst cmsg n (clit "asdfg")) jm jp
    (lit "6f6d0babf3aa6719031530edb677ca74e0089dd0e7b8854356bb1448e37cdbefe7f3a84f4f5fb3fd") (lit "This is a test of CipherSaber.").
Definition ciphersaber_2_test (iv dkey jm jp : list Z) : out bool :=
  saber_test (fun dst cmsg n => ciphersaber_2_dec iv dkey dst cmsg n (clit "asdfg") 10) jm jp
    (lit "ba9ab4cffb7700e618e382e8fcc5ab9813b1abc436ba7d5cdea1a31fb72fb5763c44cfc2ac77afee19ad") (lit "This is a test of CipherSaber-2.").
(** rc4_test.c 84 *)
Definition password : list Z := clit "just for test".
(** rc4_test.c 93-94 *)
Definition rc4_vectors : list (list Z * list Z) :=
  [(lit "just for testXXXXXXXXXXX", lit "d3c39861ec64855bce92f121713c8ce706f233cdb581b029");
   (lit "just for testXXXXXXXXXXXsdajdhajskadhsjkaduiiiii3444444444hj99230030jdfkdls nm,mv cxvxc  fsjdljiohiohhfiohweihfphopiwehfifhheihefeiohfewihfeewJJJJJJJJJJJaaaaaaaaaaaaSDDOWERUFDDSSSSSSSSSSSSSSFFFFFFFFFFFFFFFFFFFFFFFFFEEEERTYYYYYYYYYYYRddddddddddUiopooooooooooooSSSSSSYttttt345456737775547754775454754754754745754754754",
    lit "d3c39861ec64855bce92f121713c8ce706f233cdb581b0293e83b3405fa56ac5c26123486a244d2e0d8e4a0a0fa2e6312fa20f847cd6a5e56985d42c179652e9c6a5fc89395810c9d1a8c2d56c597f576fa2f33fb00abba1a8f101f8299469b2f529b65f087863a238fbcd6b7a767c2b4b5c86632b2a7e9c0e9fea25f55802f65696207fae309221b81b4379055539607b790b9dd1dcefeec2cfec5720e9a3afbbfff8137c0d3070ade5703569483bfd088dbdab9b8de769c786307fd9690f51e1e42f9a4324f0b9aff83f22b229db28847c95622afb2544df4eb097b596d7142873b04d05afd9ffb0006cf12a6d55746b7bf212c248a20aa7325fcae658e3ba364dec9d7b6b38c551ade4a64b07032659ce25d0b4faebc2831ad337ca01323a2c436632ec74e35c3d0d2fc8799da9272ed64a162aa4dd467da84885")].
(** rc4_test.c 87-91; arg: the bytes at argv[1]; the result is what is printed *)
Fixpoint print_loop (n : nat) (i : Z) (o : list Z) : out (list Z) :=
  match n with O => Ret [] | S n => let* c := zread o i in let* s := print_loop n (i + 1) o in Ret (c :: s) end.
Definition rc4_arg (out2048 arg : list Z) : out (list Z) :=
  let* n := strlen arg 0 in
  let* keylen := strlen password 0 in
  let* mem := rc4 (arg ++ out2048) (zlen arg) 0 n password keylen in
  let* o := zwrite (zdrop (zlen arg) mem) n 0 in
  print_loop (Z.to_nat n) 0 o.
(** rc4_test.c 83-99: what is printed, and the asserts.  The objects o1, hex, iv, dk, jm, jp are uninitialised. *)
Definition rc4_main (o1 hex : Z -> list Z) (iv dk jm jp : list Z) (arg : option (list Z)) : out (list Z * list bool) :=
  let* (text, es) :=
    (match arg with
     | Some a => let* t := rc4_arg (o1 0) a in Ret (t, [])
     | None => let* es := run_vectors (fun i => rc4_check (o1 i) (hex i) password) 0 rc4_vectors in Ret ([], es)
     end) in
  let* e1 := ciphersaber_1_test iv dk jm jp in
  let* e2 := ciphersaber_2_test iv dk jm jp in
  Ret (text, es ++ [e1; e2]).

(** crc32_test.c 9: TEST_STRING *)
Definition crc_string : list Z := lit "abcdefghijklmnopqrstuvwxyzABCDEFGHIJKLMNOPQRSTUVWXYZ" ++ [10].
(** crc32_test.c 15-28; poly selects the variant, val: the union; unsigned is little endian *)
Definition crc_test (poly : Z) (val : list Z) : out bool :=
  let* ts := InitTables poly in
  let* st := Update (S (Z.to_nat (zlen crc_string))) ts Init (crc_string ++ [0]) 0 (zlen crc_string) in
  let* (_, val) := Final val st in
  let* b0 := zread val 0 in let* b1 := zread val 1 in let* b2 := zread val 2 in let* b3 := zread val 3 in
  let v := b0 + 256 * b1 + 65536 * b2 + 16777216 * b3 in
  Ret (v =? (if poly =? POLY32C then 0x7d29d46d else 0xDBD96D6E)).

(** raw2hex_test.c 5-7: raw2hex(buf, X, sizeof(X) - 1); str_equal(buf, Y) *)
Definition hex_check (buf x : list Z) (len : Z) (expected : list Z) : out (bool * list Z) :=
  let* buf := raw2hex buf x len in
  let* e := cstreq buf expected in Ret (e, buf).
(** raw2hex_test.c 12-14 *)
Definition hex_vectors : list (list Z * list Z) :=
  [([0x01; 0x05; 0x0a], lit "01050a"); ([0xff; 0xde; 0xad; 0xc0; 0xde; 0x00; 0x01], lit "ffdeadc0de0001");
   ([0x00; 0x11; 0x22; 0x33; 0x44; 0x55; 0x66; 0x77; 0x88; 0x99; 0xaa; 0xbb; 0xcc; 0xdd; 0xee; 0xff], lit "00112233445566778899aabbccddeeff")].
(** raw2hex_test.c 9-17: ret and tests; buf keeps its content from test to test *)
Fixpoint hex_tests (buf : list Z) (vs : list (list Z * list Z)) (ret tests : Z) : out (Z * Z) :=
  match vs with
  | [] => Ret (ret, tests)
  | (x, y) :: vs =>
      let* (e, buf) := hex_check buf (x ++ [0]) (zlen x) (y ++ [0]) in
      hex_tests buf vs (if e then ret else ret + 1) (tests + 1)
  end.
