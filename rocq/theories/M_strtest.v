(** Model of tests/base64_test.c, tests/ipv4fromstring_test.c, tests/normalizepath_test.c,
    tests/numberToString_test.c, tests/spformat_test.c and tests/stringptr_replace_test.c.

    The contents of uninitialised local arrays are arguments.  A program is the list of the truth
    values of its assertions, in order (those with assert would stop at the first false one), or of
    the strings it prints. *)
From Coq Require Import String Ascii.
From Verif Require Import Base Cstr M_base64 M_ip M_stringptr M_filelib M_num M_format M_spl M_shatest M_hashtest.

(** include/strlib.h 83, 89: with N an int constant *)
Definition BASE64ENC_BYTES (n : Z) : Z := (n + 2) / 3 * 4.
Definition BASE64DEC_BYTES (n : Z) : Z := n / 4 * 3.
(** base64_test.c 16-29 *)
Definition b64_sizes : list bool :=
  [1 =? 1; BASE64ENC_BYTES 0 =? 0; BASE64ENC_BYTES 1 =? 4; BASE64ENC_BYTES 2 =? 4; BASE64ENC_BYTES 3 =? 4; BASE64ENC_BYTES 4 =? 8; BASE64ENC_BYTES 5 =? 8;
   BASE64ENC_BYTES 6 =? 8; BASE64ENC_BYTES 7 =? 12; BASE64DEC_BYTES 12 =? 9; BASE64DEC_BYTES 8 =? 6; BASE64DEC_BYTES 4 =? 3].
(** base64_test.c: the statements; b64: b64str, raw: raw *)
Inductive bstep :=
| BEnc (src : list Z)                  (* base64enc(b64str, src, sizeof(src) - 1) *)
| BEncStr (src : list Z) (len want : Z)(* T(base64enc_str(b64str, src, len) == want) *)
| BIs (want : list Z)                  (* T(str_equal(b64str, want)) *)
| BDec (want : Z)                      (* T(base64dec(raw, b64str, sizeof raw) == want) *)
| BDecLit (src : list Z) (want : Z)    (* T(base64dec(raw, src, sizeof raw) == want) *)
| BRaw (want : list Z).                (* T(str_equal(raw, want)) *)
Fixpoint b64_run (b64 raw : list Z) (ss : list bstep) : out (list bool) :=
  match ss with
  | [] => Ret []
  | BEnc src :: ss => let* b64 := base64enc b64 (src ++ [0]) (zlen src) in b64_run b64 raw ss
  | BEncStr src len want :: ss =>
      let* (r, b64) := base64enc_str b64 (src ++ [0]) len in let* es := b64_run b64 raw ss in Ret ((r =? want) :: es)
  | BIs want :: ss => let* e := cstreq b64 (want ++ [0]) in let* es := b64_run b64 raw ss in Ret (e :: es)
  | BDec want :: ss => let* (r, raw) := base64dec raw b64 49 in let* es := b64_run b64 raw ss in Ret ((r =? want) :: es)
  | BDecLit src want :: ss => let* (r, raw) := base64dec raw (src ++ [0]) 49 in let* es := b64_run b64 raw ss in Ret ((r =? want) :: es)
  | BRaw want :: ss => let* e := cstreq raw (want ++ [0]) in let* es := b64_run b64 raw ss in Ret (e :: es)
  end.
(** enc, then T on the text, the length and the bytes back *)
Definition back (src text : list Z) : list bstep := [BIs text; BDec (zlen src); BRaw src].
Definition b16 : list Z := [0x26; 0xC7; 0x1B; 0x28; 0xFE; 0xB0; 0x90; 0x08; 0x5A; 0xDE; 0xC6; 0xE0; 0xF0; 0xF4; 0x76; 0xDD].
Definition b9 : list Z := [0xF3; 0x9B; 0x70; 0xA5; 0x63; 0xFA; 0x54; 0x86; 0xD1].
(** base64_test.c 31-76; sizeof 2 is 4 and sizeof b64str is 65 *)
Definition b64_steps : list bstep :=
  BEnc (lit "a") :: back (lit "a") (lit "YQ==") ++ BEnc (lit "aa") :: back (lit "aa") (lit "YWE=") ++ BEnc (lit "aaa") :: back (lit "aaa") (lit "YWFh") ++
  [BEncStr (lit "AAAA") 4 0; BEncStr (lit "AAAA") 65 1] ++ back (lit "AAAA") (lit "QUFBQQ==") ++ BEnc (lit "AAAA") :: back (lit "AAAA") (lit "QUFBQQ==") ++
  BEnc [1; 2; 3; 4; 5] :: back [1; 2; 3; 4; 5] (lit "AQIDBAU=") ++
  [BDecLit (lit "=QIDBAU=") 0; BDecLit (lit "AQ(DBAU=") 0; BDecLit (lit "AQIDB@U=") 0; BDecLit (lit "AQIDBAU==") 0; BDecLit (lit "AQIDB===") 0] ++
  BEnc b16 :: back b16 (lit "JscbKP6wkAha3sbg8PR23Q==") ++ BEnc b9 :: back b9 (lit "85twpWP6VIbR").
Definition base64_test (b64 raw : list Z) : out (list bool) := let* es := b64_run b64 raw b64_steps in Ret (b64_sizes ++ es).

(** ipv4fromstring_test.c 4-12 *)
Definition ip_is (ip want : list Z) : out bool :=
  let* a := zread ip 0 in let* b := zread ip 1 in let* c := zread ip 2 in let* d := zread ip 3 in
  Ret ((a =? znth 0 want 0) && (b =? znth 0 want 1) && (c =? znth 0 want 2) && (d =? znth 0 want 3)).
Definition ipv4fromstring_test (ip : list Z) : out (list bool) :=
  let* (_, ip) := ipv4fromstring (clit "010.000.000.001") ip in
  let* e1 := ip_is ip [10; 0; 0; 1] in
  let* (_, ip) := ipv4fromstring (clit "128.010.020.031") ip in
  let* e2 := ip_is ip [128; 10; 20; 31] in
  Ret [e1; e2].

(** include/stringptr.h: SPLITERAL(X) *)
Definition SPLITERAL (s : list Z) : sp := mkSp (s ++ [0]) 0 (zlen s).
(** normalizepath_test.c 6-11: the printed string, None if normalizepath returns 0; buf: the array inside normalizepath *)
Definition np_test (buf : list Z) (x : sp) : out (option (list Z)) :=
  let* (res, x) := normalizepath (S (Z.to_nat (sz x))) buf x in
  if res =? 0 then Ret None else let* n := strlen (sb x) (so x) in Ret (Some (ztake n (zdrop (so x) (sb x)))).
(** normalizepath_test.c 14-37; true: assert(test(t1)), false: assert(!test(t1)) *)
Definition np_paths : list (list Z * bool) :=
  [(lit "/usr/bin/../local/bin/./gcc/../..", true); (lit "/usr/bin/..//.././/./usr/../..", false); (lit "/usr/bin/..//.././/./usr/../", true);
   (lit "/usr/bin/..//.././/.//../..", false); (lit "/usr/local//bin", true); (lit "////usr/local//bin", true); (lit "/./././usr/local//bin", true);
   (lit "/./././usr/local//bin/../../", true); (lit "/./././usr/local//bin/../../..", true); (lit "/usr/.local//bin../.../foo", true);
   (lit "/...../usr/.local//bin../.../foo/.", true); (lit "/./...../usr/.local//bin../.../foo/.", true)].
(** mal, buf: the allocation and the array of the k-th round *)
Fixpoint np_run (mal : nat -> option (Z -> Z)) (buf : nat -> list Z) (k : nat) (ps : list (list Z * bool)) : out (list (option (list Z) * bool)) :=
  match ps with
  | [] => Ret []
  | (p, want) :: ps =>
      let* t1 := stringptr_copy (mal k) (SPLITERAL p) in
      let* r := np_test (buf k) t1 in
      let* rs := np_run mal buf (S k) ps in
      Ret ((r, Bool.eqb want match r with Some _ => true | None => false end) :: rs)
  end.
Definition normalizepath_test (mal : nat -> option (Z -> Z)) (buf : nat -> list Z) : out (list (option (list Z) * bool)) := np_run mal buf 0 np_paths.

(** numberToString_test.c 6-12 *)
Definition getflags (sign pad lowerhex : Z) : Z :=
  Z.lor (Z.lor (if sign =? 0 then 0 else 2) (if pad =? 0 then 0 else 1)) (if lowerhex =? 0 then 0 else 4).
(** puts(numberToString(number, base, buffer, maxlen, flags)): what is printed, puts(NULL) is undefined; number as uint64_t *)
Definition nts_puts (buffer : list Z) (number base maxlen flags : Z) : out (list Z * list Z) :=
  let* r := numberToString number base buffer maxlen flags in
  match r with
  | None => UB
  | Some (o, buffer) => let* n := strlen buffer o in Ret (ztake n (zdrop o buffer), buffer)
  end.
(** numberToString_test.c 32-59: number, base, maxlen, flags *)
Definition nts_calls : list (Z * Z * Z * Z) :=
  let m1 := 2 ^ 64 - 1 in
  [(m1, 10, 16, getflags 1 0 0); (m1, 10, 0, getflags 1 0 0); (2 ^ 32 - 1, 10, 16, getflags 0 0 0); (m1, 10, 0, getflags 0 0 0);
   (m1, 10, 0, getflags 1 1 0); (m1, 10, 20, getflags 1 1 0); (2 ^ 32 - 1, 10, 0, getflags 0 1 0); (m1, 10, 20, getflags 0 1 0);
   (0, 2, 0, getflags 1 0 0); (0, 8, 0, getflags 0 0 0); (0, 10, 20, getflags 1 0 0); (0, 16, 20, getflags 0 0 0);
   (0, 2, 0, getflags 1 1 0); (0, 8, 0, getflags 0 1 0); (0, 10, 20, getflags 1 1 0); (0, 16, 20, getflags 0 1 0);
   (0, 2, 0, getflags 1 1 1); (0, 8, 0, getflags 0 1 1); (255, 16, 20, getflags 1 1 1); (255, 16, 20, getflags 0 1 1)].
Fixpoint nts_run (buffer : list Z) (cs : list (Z * Z * Z * Z)) : out (list (list Z)) :=
  match cs with
  | [] => Ret []
  | (number, base, maxlen, flags) :: cs => let* (s, buffer) := nts_puts buffer number base maxlen flags in let* ss := nts_run buffer cs in Ret (s :: ss)
  end.
Definition numberToString_test (buffer : list Z) : out (list (list Z)) := nts_run buffer nts_calls.

(** spformat_test.c: ret = ulz_snprintf(buf or NULL, n, fmt, args); ret == want if there is a want;
    !strcmp(buf, text) if there is a text (one truth value for both).
    The lines that call libc's snprintf (13-14, 45-47) are left out; FHavoc: buf is arbitrary after them *)
Inductive fstep := FBuf (n : Z) (fmt : list Z) (args : list arg) (want : option Z) (text : option (list Z)) | FNull (fmt : list Z) (args : list arg) (want : Z) | FHavoc (buf : list Z).
(** spformat_test.c 17-90; p: the address of buf *)
Definition sf_steps (p : Z) (junk : list Z) : list fstep :=
  let f4 := lit "[%.4d] foo bar %s" ++ [10] in
  let f := lit "[%d] foo bar %s%%%zu,%lld" ++ [10] in
  let baz := VStr (Some (clit "baz")) in
  let m1 := VLong (2 ^ 64 - 1) in
  [FBuf 128 f4 [VInt 13; baz] (Some 19) (Some (lit "[0013] foo bar baz" ++ [10])); FNull f4 [VInt 13; baz] 19;
   FBuf 128 f [VInt 13; baz; m1; m1] (Some 41) (Some (lit "[13] foo bar baz%18446744073709551615,-1" ++ [10])); FBuf 128 (f ++ lit "%") [VInt 13; baz; m1; m1] (Some (-1)) None;
   FNull f4 [VInt 13; baz] 19; FBuf 4 (lit "%d") [VInt 1337] (Some 3) (Some (lit "133")); FHavoc junk; FNull (lit "%d") [VInt 1337] 4;
   FBuf 128 (lit "%p") [VLong p] None None; FNull (lit "%x") [VInt 10] 1; FNull (lit "%X") [VInt 10] 1;
   FBuf 10 (lit "%x") [VInt 10] (Some 1) (Some (lit "a")); FBuf 10 (lit "%X") [VInt 10] (Some 1) (Some (lit "A")); FNull (lit "%.2x") [VInt 10] 2; FNull (lit "%.2X") [VInt 10] 2;
   FBuf 10 (lit "%.2x") [VInt 10] (Some 2) (Some (lit "0a")); FBuf 10 (lit "%.2X") [VInt 10] (Some 2) (Some (lit "0A"))].
Fixpoint sf_run (cbuf : nat -> list Z) (k : nat) (buf : list Z) (ss : list fstep) : out (list bool) :=
  match ss with
  | [] => Ret []
  | FHavoc buf :: ss => sf_run cbuf k buf ss
  | FNull fmt args want :: ss => let* (r, _) := ulz_snprintf None 0 (fmt ++ [0]) args (cbuf k) in let* es := sf_run cbuf (S k) buf ss in Ret ((r =? want) :: es)
  | FBuf n fmt args want text :: ss =>
      let* (r, b) := ulz_snprintf (Some buf) n (fmt ++ [0]) args (cbuf k) in
      let buf := match b with Some b => b | None => buf end in
      let* e := match text with None => Ret true | Some t => cstreq buf (t ++ [0]) end in
      let* es := sf_run cbuf (S k) buf ss in
      Ret (match want with None => es | Some want => (r =? want) && e :: es end)
  end.

(** stringptr_replace_test.c 6-36: the string, what, with, the expected string *)
Definition rep_cases : list (list Z * list Z * list Z * list Z) :=
  [(lit "ABAB", lit "B", [], lit "AA"); (lit "ABAB", lit "A", [], lit "BB"); (lit "ABB", lit "A", [], lit "BB"); (lit "ABBA", lit "A", [], lit "BB");
   (lit "ABBA", lit "BB", [], lit "AA"); (lit "ABBA", lit "BB", lit "CCCC", lit "ACCCCA"); (lit "ABBA", lit "BBB", lit "CCCC", lit "ABBA");
   (lit "ABBA", lit "A", lit "CCCC", lit "CCCCBBCCCC")].
(** mc, mr: the allocations of the copy and of the result in the k-th case; the list inside gets its memory *)
Fixpoint rep_run (mc mr : nat -> option (Z -> Z)) (k : nat) (cs : list (list Z * list Z * list Z * list Z)) : out (list bool) :=
  match cs with
  | [] => Ret []
  | (s, what, whit, want) :: cs =>
      let* c := stringptr_copy (mc k) (SPLITERAL s) in
      let* (y, _) := stringptr_replace (S (S (S (List.length s)))) (mr k) c (SPLITERAL what) (SPLITERAL whit) in
      let* e := stringptr_eq y (Some (SPLITERAL want)) in
      let ok := negb (e =? 0) && match y with Some y => sz y =? zlen want | None => false end in
      let* es := rep_run mc mr (S k) cs in
      Ret (ok :: es)
  end.
Definition stringptr_replace_test (mc mr : nat -> option (Z -> Z)) : out (list bool) := rep_run mc mr 0 rep_cases.
