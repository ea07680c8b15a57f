(** Model of tests/sha512_test.c and of crypto_hash (src/sha512/sha512.c 139-165, compiled
    under TEST_SHA512).

    The contents of uninitialised local arrays are arguments (h, x, c1, c2, ...).  In the
    test of the prefixes, rnd i is what rand() returns in iteration i and junk i gives the local
    arrays and contexts of that iteration.  printf is modelled by the list of what it reports. *)
From Verif Require Import Base Cstr M_hex M_sha512 M_stringptr M_spfile.

(** sha512.c 140-164; m: the bytes at m; h, x: the local arrays.  The result is out. *)
Definition crypto_hash (h x dst m : list Z) (n : Z) : out (list Z) :=
  let b := n in
  let* h := for_ 64 0 (fun i h => let* v := zread iv i in zwrite h i v) h in
  let* h := crypto_hashblocks (S (Z.to_nat n)) h m 0 n in
  let r := Z.land n 127 in
  let o := n - r in
  let* x := for_ 256 0 (fun i x => zwrite x i 0) x in
  let* x := for_ (Z.to_nat r) 0 (fun i x => let* v := zread m (o + i) in zwrite x i v) x in
  let* x := zwrite x r 128 in
  let n := 256 - 128 * (if r <? 112 then 1 else 0) in
  let* x := zwrite x (n - 9) (u8 (Z.shiftr b 61)) in
  let* x := ts64 x (n - 8) (u64 (Z.shiftl b 3)) in
  let* h := crypto_hashblocks 3 h x 0 n in
  for_ 64 0 (fun i dst => let* v := zread h i in zwrite dst i v) dst.

(** sha512_test.c 27-30 (n = 64); n - i iterations left *)
Fixpoint to_str_loop (n : nat) (i : Z) (hash dst : list Z) : out (list Z) :=
  match n with
  | O => zwrite dst (2 * i) 0
  | S n =>
      let* b := zread hash i in
      let* c := zread hextab (Z.land 15 (Z.shiftr b 4)) in
      let* dst := zwrite dst (2 * i) c in
      let* b := zread hash i in
      let* c := zread hextab (Z.land 15 b) in
      let* dst := zwrite dst (2 * i + 1) c in
      to_str_loop n (i + 1) hash dst
  end.
(** sha512_test.c 25-32 *)
Definition sha512_to_str (hash dst : list Z) : out (list Z) := to_str_loop 64 0 hash dst.

(** sha512_test.c 45-50; pos: the offset in the file, buf: the local array.  None: a read
    failed.  rs: what each read does. *)
Fixpoint read_loop (rs : list io) (content buf : list Z) (pos : Z) (c : ctx) : out (option ctx) :=
  match rs with
  | [] => Fuel
  | IoErr :: _ => Ret None
  | Xfer k :: rs =>
      let d := ztake (clamp k (zlen buf)) (zdrop pos content) in
      let nread := zlen d in
      let* buf := zwrites buf 0 d in
      if nread =? 0 then Ret (Some c)
      else
        let* c := sha512_update (S (Z.to_nat nread)) c buf 0 nread in
        read_loop rs content buf (pos + nread) c
  end.
(** sha512_test.c 35-57: success and outbuf; c, buf: the local objects *)
Definition sha512_hash (opened : bool) (rs : list io) (content : list Z) (c : ctx) (buf outbuf : list Z) : out (Z * list Z) :=
  if negb opened then Ret (0, outbuf)
  else
    let* c := sha512_init c in
    let* r := read_loop rs content buf 0 c in
    match r with
    | None => Ret (0, outbuf)
    | Some c =>
        let* c := sha512_end c in
        let* outbuf := sha512_to_str (ch c) outbuf in
        Ret (1, outbuf)
    end.

(** sha512_test.c 74-80: p - buf = o *)
Fixpoint feed (fuel : nat) (c : ctx) (buf : list Z) (o n : Z) : out ctx :=
  match fuel with
  | O => Fuel
  | S fuel =>
      if n =? 0 then Ret c
      else
        let k := if 128 <=? n then 128 else n in
        let* c := sha512_update (S (Z.to_nat k)) c buf o k in
        feed fuel c buf (o + 128) (n - k)
  end.
(** memcmp(a, b, 64) == 0 *)
Fixpoint memeq (n : nat) (a b : list Z) (i : Z) : out bool :=
  match n with
  | O => Ret true
  | S n => let* x := zread a i in let* y := zread b i in if x =? y then memeq n a b (i + 1) else Ret false
  end.
(** the local objects of one iteration: the arrays of crypto_hash and the context *)
Record locals := mkLocals { jh : list Z; jx : list Z; jc : ctx }.
(** sha512_test.c 66-82: one iteration: buf, the three hashes and whether they agree.  The
    context is the same object for both hashes, so the second init finds what the first left. *)
Definition test_step (r : Z) (j : locals) (i : Z) (buf h1 h2 h3 : list Z) : out (list Z * list Z * list Z * list Z * bool) :=
  let* buf := zwrite buf i (Z.land r 255) in
  let* h1 := crypto_hash (jh j) (jx j) h1 buf i in
  let* c := sha512_init (jc j) in
  let* c := sha512_update (S (Z.to_nat i)) c buf 0 i in
  let* c := sha512_end c in
  let* d := zreads (ch c) 0 64 in
  let* h2 := zwrites h2 0 d in
  let* c := sha512_init c in
  let* c := feed (S (Z.to_nat i)) c buf 0 i in
  let* c := sha512_end c in
  let* d := zreads (ch c) 0 64 in
  let* h3 := zwrites h3 0 d in
  let* e2 := memeq 64 h1 h2 0 in
  let* e3 := (if e2 then memeq 64 h1 h3 0 else Ret false) in
  Ret (buf, h1, h2, h3, e3).
(** sha512_test.c 65-83: the lengths for which "err at" is printed; n iterations left *)
Fixpoint test_loop (n : nat) (rnd : Z -> Z) (junk : Z -> locals) (i : Z) (buf h1 h2 h3 : list Z) : out (list Z) :=
  match n with
  | O => Ret []
  | S n =>
      let* (buf, h1, h2, h3, e) := test_step (rnd i) (junk i) i buf h1 h2 h3 in
      let* errs := test_loop n rnd junk (i + 1) buf h1 h2 h3 in
      Ret (if e then errs else i :: errs)
  end.
(** sha512_test.c 59-85; the size of buf is that of the array, 8192 in the code.  The result is
    err and what was reported. *)
Definition test (rnd : Z -> Z) (junk : Z -> locals) (buf h1 h2 h3 : list Z) : out (Z * list Z) :=
  let* errs := test_loop (length buf) rnd junk 0 buf h1 h2 h3 in
  Ret (if zlen errs =? 0 then 0 else 1, errs).

(** strcmp(a, b) == 0 *)
Fixpoint cstreq (a b : list Z) : out bool :=
  match a, b with
  | x :: a, y :: b => if x =? y then if x =? 0 then Ret true else cstreq a b else Ret false
  | _, _ => UB
  end.
(** what test_file prints: the complaint or the string at hash1 *)
Inductive said := Complaint | Hash (s : list Z).
(** sha512_test.c 87-98; size: what getfilesize finds, opened1/opened2, rs1/rs2: the open and
    read calls of sha512_hash and of stringptr_fromfile, mal: the allocation of the latter.
    f->ptr of a NULL f is undefined. *)
Definition test_file (opened1 opened2 : bool) (rs1 rs2 : list io) (size : Z) (mal : option (Z -> Z)) (content : list Z)
    (c : ctx) (buf hash1 hash2 h jh jx : list Z) : out (Z * said) :=
  let* (_, hash1) := sha512_hash opened1 rs1 content c buf hash1 in
  let* f := stringptr_fromfile size opened2 mal rs2 content in
  match f with
  | None => UB
  | Some f =>
      let* h := crypto_hash jh jx h (zdrop (so f) (sb f)) (sz f) in
      let* hash2 := sha512_to_str h hash2 in
      let* e := cstreq hash1 hash2 in
      if e then let* n := strlen hash1 0 in Ret (0, Hash (ztake n hash1)) else Ret (1, Complaint)
  end.
(** sha512_test.c 100-104; file = None: argc is 1 *)
Definition sha_main (test_err : Z) (file : option (out (Z * said))) : out Z :=
  if negb (test_err =? 0) then Ret 1
  else match file with None => Ret 0 | Some r => let* (e, _) := r in Ret e end.
