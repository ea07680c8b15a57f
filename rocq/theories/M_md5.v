(** Model of src/md5/md5.c and src/md5/md5str.c. *)
From Verif Require Import Base M_hex.

(** md5.c 31-34 *)
Definition F (b c d : Z) : Z := Z.lxor (Z.land (Z.lxor c d) b) d.
Definition G (b c d : Z) : Z := Z.lxor (Z.land (Z.lxor c b) d) c.
Definition H (b c d : Z) : Z := Z.lxor (Z.lxor b c) d.
Definition I (b c d : Z) : Z := Z.lxor c (Z.lor b (Z.lxor d 0xffffffff)).
(** md5.c 36, on uint32_t *)
Definition ROTL (x n : Z) : Z := Z.lor (u32 (Z.shiftl x n)) (Z.shiftr x (32 - n)).
(** md5.c 38-68 *)
Definition md5_IV : list Z := [0x67452301; 0xEFCDAB89; 0x98BADCFE; 0x10325476].
Definition K : list Z := [
	0xD76AA478; 0xE8C7B756; 0x242070DB; 0xC1BDCEEE;
	0xF57C0FAF; 0x4787C62A; 0xA8304613; 0xFD469501;
	0x698098D8; 0x8B44F7AF; 0xFFFF5BB1; 0x895CD7BE;
	0x6B901122; 0xFD987193; 0xA679438E; 0x49B40821;

	0xF61E2562; 0xC040B340; 0x265E5A51; 0xE9B6C7AA;
	0xD62F105D; 0x02441453; 0xD8A1E681; 0xE7D3FBC8;
	0x21E1CDE6; 0xC33707D6; 0xF4D50D87; 0x455A14ED;
	0xA9E3E905; 0xFCEFA3F8; 0x676F02D9; 0x8D2A4C8A;

	0xFFFA3942; 0x8771F681; 0x6D9D6122; 0xFDE5380C;
	0xA4BEEA44; 0x4BDECFA9; 0xF6BB4B60; 0xBEBFBC70;
	0x289B7EC6; 0xEAA127FA; 0xD4EF3085; 0x04881D05;
	0xD9D4D039; 0xE6DB99E5; 0x1FA27CF8; 0xC4AC5665;

	0xF4292244; 0x432AFF97; 0xAB9423A7; 0xFC93A039;
	0x655B59C3; 0x8F0CCC92; 0xFFEFF47D; 0x85845DD1;
	0x6FA87E4F; 0xFE2CE6E0; 0xA3014314; 0x4E0811A1;
	0xF7537E82; 0xBD3AF235; 0x2AD7D2BB; 0xEB86D391].
Definition MP : list Z := [
	1; 6; 11; 0; 5; 10; 15; 4; 9; 14; 3; 8; 13; 2; 7; 12;
	5; 8; 11; 14; 1; 4; 7; 10; 13; 0; 3; 6; 9; 12; 15; 2;
	0; 7; 14; 5; 12; 3; 10; 1; 8; 15; 6; 13; 4; 11; 2; 9].

(** md5.c 70-79 *)
Definition dec32le (buf : list Z) (o : Z) : out Z :=
  let* b0 := zread buf o in
  let* b1 := zread buf (o + 1) in
  let* b2 := zread buf (o + 2) in
  let* b3 := zread buf (o + 3) in
  Ret (Z.lor (Z.lor (Z.lor b0 (u32 (Z.shiftl b1 8))) (u32 (Z.shiftl b2 16))) (u32 (Z.shiftl b3 24))).
(** md5.c 81-90: the num words written to v *)
Fixpoint range_dec32le (num : nat) (buf : list Z) (o : Z) : out (list Z) :=
  match num with
  | O => Ret []
  | S num => let* w := dec32le buf o in let* l := range_dec32le num buf (o + 4) in Ret (w :: l)
  end.

(** one iteration of a loop in md5.c 106-129.  [idx j]: the index into m of step j.  The
    uint32_t sums are reduced once at the end instead of after every addition. *)
Definition quad (f : Z -> Z -> Z -> Z) (idx : Z -> out Z) (s0 s1 s2 s3 : Z) (m : list Z) (i : Z) (v : Z * Z * Z * Z) : out (Z * Z * Z * Z) :=
  let '(a, b, c, d) := v in
  let* j := idx i in let* x := zread m j in let* k := zread K i in
  let a := u32 (b + ROTL (u32 (a + f b c d + x + k)) s0) in
  let* j := idx (i + 1) in let* x := zread m j in let* k := zread K (i + 1) in
  let d := u32 (a + ROTL (u32 (d + f a b c + x + k)) s1) in
  let* j := idx (i + 2) in let* x := zread m j in let* k := zread K (i + 2) in
  let c := u32 (d + ROTL (u32 (c + f d a b + x + k)) s2) in
  let* j := idx (i + 3) in let* x := zread m j in let* k := zread K (i + 3) in
  let b := u32 (c + ROTL (u32 (b + f c d a + x + k)) s3) in
  Ret (a, b, c, d).
(** a loop with n iterations from i *)
Fixpoint quads (n : nat) (f : Z -> Z -> Z -> Z) (idx : Z -> out Z) (s0 s1 s2 s3 : Z) (m : list Z) (i : Z) (v : Z * Z * Z * Z) : out (Z * Z * Z * Z) :=
  match n with
  | O => Ret v
  | S n => let* v := quad f idx s0 s1 s2 s3 m i v in quads n f idx s0 s1 s2 s3 m (i + 4) v
  end.
(** md5.c 93-135: the new val; buf: 64 bytes at o *)
Definition md5_round (buf : list Z) (o : Z) (val : Z * Z * Z * Z) : out (Z * Z * Z * Z) :=
  let* m := range_dec32le 16 buf o in
  let* v := quads 4 F (fun j => Ret j) 7 12 17 22 m 0 val in
  let* v := quads 4 G (fun j => zread MP (j - 16)) 5 9 14 20 m 16 v in
  let* v := quads 4 H (fun j => zread MP (j - 16)) 4 11 16 23 m 32 v in
  let* v := quads 4 I (fun j => zread MP (j - 16)) 6 10 15 21 m 48 v in
  let '(a, b, c, d) := v in
  let '(v0, v1, v2, v3) := val in
  Ret (u32 (v0 + a), u32 (v1 + b), u32 (v2 + c), u32 (v3 + d)).

(** include/md5.h 8-12 *)
Record ctx := mkCtx { cbuf : list Z; count : Z; val : Z * Z * Z * Z }.
(** md5.c 137-141; buf keeps its indeterminate content *)
Definition md5_init (junk : list Z) : ctx := mkCtx junk 0 (0x67452301, 0xEFCDAB89, 0x98BADCFE, 0x10325476).
(** md5.c 150-166 *)
Fixpoint update_loop (fuel : nat) (data : list Z) (o len ptr : Z) (c : ctx) : out ctx :=
  match fuel with
  | O => Fuel
  | S fuel =>
      if 0 <? len then
        let clen := 64 - ptr in
        let clen := if len <? clen then len else clen in
        let* d := zreads data o clen in
        let* b := zwrites (cbuf c) ptr d in
        let ptr := ptr + clen in
        let cnt := u64 (count c + clen) in
        if ptr =? 64 then
          let* v := md5_round b 0 (val c) in update_loop fuel data (o + clen) (len - clen) 0 (mkCtx b cnt v)
        else update_loop fuel data (o + clen) (len - clen) ptr (mkCtx b cnt (val c))
      else Ret c
  end.
(** md5.c 143-167 *)
Definition md5_update (fuel : nat) (c : ctx) (data : list Z) (o len : Z) : out ctx :=
  update_loop fuel data o len (Z.land (count c) 63) c.
(** md5.c 169-198: the bytes written *)
Definition enc32le (x : Z) : list Z := [u8 x; u8 (Z.shiftr x 8); u8 (Z.shiftr x 16); u8 (Z.shiftr x 24)].
Definition enc64le (x : Z) : list Z := enc32le (u32 x) ++ enc32le (u32 (Z.shiftr x 32)).
(** md5.c 200-220; junk: the uninitialised unsigned char buf[64].  The context is const. *)
Definition md5_end (junk : list Z) (c : ctx) (dst : list Z) : out (list Z) :=
  let ptr := Z.land (count c) 63 in
  let* d := zreads (cbuf c) 0 ptr in
  let* buf := zwrites junk 0 d in
  let* buf := zwrite buf ptr 0x80 in
  let ptr := ptr + 1 in
  let* (buf, v) :=
    (if 56 <? ptr then
       let* buf := zwrites buf ptr (zrepeat 0 (64 - ptr)) in
       let* v := md5_round buf 0 (val c) in
       let* buf := zwrites buf 0 (zrepeat 0 56) in
       Ret (buf, v)
     else
       let* buf := zwrites buf ptr (zrepeat 0 (56 - ptr)) in
       Ret (buf, val c)) in
  let* buf := zwrites buf 56 (enc64le (u64 (Z.shiftl (count c) 3))) in
  let* v := md5_round buf 0 v in
  let '(v0, v1, v2, v3) := v in
  zwrites dst 0 (enc32le v0 ++ enc32le v1 ++ enc32le v2 ++ enc32le v3).
(** md5str.c 4-11; junk, raw: the uninitialised context buffer and local arrays *)
Definition md5str (fuel : nat) (junk junk2 raw dst src : list Z) (o len : Z) : out (list Z) :=
  let m := md5_init junk in
  let* m := md5_update fuel m src o len in
  let* raw := md5_end junk2 m raw in
  raw2hex dst raw 16.
