(** Model of src/strlib/base64_tbl.c, base64enc.c, base64dec.c, base64enc_str.c.

    Characters are byte values 0..255.  src of base64dec/base64enc_str is a
    buffer that contains a terminating 0.  [d] and [s] are offsets into dst and
    src.  Comparisons of a (signed) char with an ASCII constant do not depend on
    the sign of values above 127. *)
From Verif Require Import Base.

(** src/strlib/base64_tbl.c 3: "ABCDEFGHIJKLMNOPQRSTUVWXYZabcdefghijklmnopqrstuvwxyz0123456789+/" *)
Definition base64_tbl : list Z :=
  [65; 66; 67; 68; 69; 70; 71; 72; 73; 74; 75; 76; 77; 78; 79; 80; 81; 82; 83; 84; 85; 86;
   87; 88; 89; 90; 97; 98; 99; 100; 101; 102; 103; 104; 105; 106; 107; 108; 109; 110; 111;
   112; 113; 114; 115; 116; 117; 118; 119; 120; 121; 122; 48; 49; 50; 51; 52; 53; 54; 55;
   56; 57; 43; 47].

(** src/strlib/base64enc.c 24-27 and base64enc_str.c 22-25: emit one group *)
Definition emit_group (dst : list Z) (d n i : Z) : out (list Z) :=
  let* c0 := zread base64_tbl (Z.land (Z.shiftr n 18) 63) in
  let* dst := zwrite dst d c0 in
  let* c1 := zread base64_tbl (Z.land (Z.shiftr n 12) 63) in
  let* dst := zwrite dst (d + 1) c1 in
  let* c2 := (if i =? 0 then Ret 61 else zread base64_tbl (Z.land (Z.shiftr n 6) 63)) in
  let* dst := zwrite dst (d + 2) c2 in
  let* c3 := (if i =? 2 then zread base64_tbl (Z.land n 63) else Ret 61) in
  zwrite dst (d + 3) c3.

(** src/strlib/base64enc.c 8-28: one iteration per fuel unit *)
Fixpoint base64enc_loop (fuel : nat) (dst src : list Z) (d s count : Z)
  : out (list Z * Z) :=
  match fuel with
  | O => Fuel
  | S fuel =>
      if count =? 0 then Ret (dst, d)
      else
        let* b := zread src s in
        let n := Z.shiftl b 16 in
        let '(s, count, i) := (s + 1, count - 1, 0) in
        let* (n, s, count, i) :=
          (if count =? 0 then Ret (n, s, count, i)
           else let* b := zread src s in
                Ret (Z.lor n (Z.shiftl b 8), s + 1, count - 1, i + 1)) in
        let* (n, s, count, i) :=
          (if count =? 0 then Ret (n, s, count, i)
           else let* b := zread src s in
                Ret (Z.lor n b, s + 1, count - 1, i + 1)) in
        let* dst := emit_group dst d n i in
        base64enc_loop fuel dst src (d + 4) s count
  end.

(** src/strlib/base64enc.c 4-30 *)
Definition base64enc (dst src : list Z) (count : Z) : out (list Z) :=
  let* (dst, d) := base64enc_loop (S (Z.to_nat count)) dst src 0 0 count in
  zwrite dst d 0.

(** src/strlib/base64dec.c 5-9 *)
Fixpoint chrpos_loop (tbl : list Z) (i c : Z) : Z :=
  match tbl with
  | [] => -1
  | t :: tbl => if t =? c then i else chrpos_loop tbl (i + 1) c
  end.
Definition chrpos (c : Z) : Z := chrpos_loop base64_tbl 0 c.

(** src/strlib/base64dec.c 15-40; cnt is an int, its overflow is undefined;
    returns (result, dst) *)
Fixpoint base64dec_loop (fuel : nat) (dst src : list Z) (s d l o n cnt skip : Z)
  : out (Z * list Z) :=
  match fuel with
  | O => Fuel
  | S fuel =>
      let* c := zread src s in
      let go p skip :=
        let n := Z.lor (Z.shiftl n 6) p in
        let* cnt := int_r (cnt + 1) in
        if Z.rem cnt 4 =? 0 then
          if l <? 3 then Ret (0, dst)
          else
            let* dst := zwrite dst d (u8 (Z.shiftr n 16)) in
            let* dst := zwrite dst (d + 1) (Z.land (Z.shiftr n 8) 255) in
            let* dst := zwrite dst (d + 2) (Z.land n 255) in
            base64dec_loop fuel dst src (s + 1) (d + 3) (l - 3) (u64 (o + (3 - skip))) 0 cnt skip
        else base64dec_loop fuel dst src (s + 1) d l o n cnt skip in
      if c =? 61 then
        let skip := skip + 1 in
        if 2 <? skip then Ret (0, dst) else go 0 skip
      else if c =? 0 then
        if negb (Z.rem cnt 4 =? 0) || (l =? 0) then Ret (0, dst)
        else let* dst := zwrite dst d 0 in Ret (o, dst)
      else if negb (skip =? 0) then Ret (0, dst)
      else let p := chrpos c in
           if p =? -1 then Ret (0, dst) else go p skip
  end.

(** src/strlib/base64dec.c 10-42 *)
Definition base64dec (dst src : list Z) (dst_len : Z) : out (Z * list Z) :=
  if dst_len =? 0 then Ret (0, dst)
  else base64dec_loop (S (length src)) dst src 0 0 dst_len 0 0 0 0.

(** src/strlib/base64enc_str.c 9-27 *)
Fixpoint base64enc_str_loop (fuel : nat) (dst src : list Z) (d s l : Z)
  : out (list Z * Z * Z * Z) :=
  match fuel with
  | O => Fuel
  | S fuel =>
      let* b := zread src s in
      if negb (b =? 0) && (4 <? l) then
        let n := Z.shiftl b 16 in
        let '(s, i) := (s + 1, 0) in
        let* b := zread src s in
        let '(n, s, i) :=
          if b =? 0 then (n, s, i) else (Z.lor n (Z.shiftl b 8), s + 1, i + 1) in
        let* b := zread src s in
        let '(n, s, i) :=
          if b =? 0 then (n, s, i) else (Z.lor n b, s + 1, i + 1) in
        let* dst := emit_group dst d n i in
        base64enc_str_loop fuel dst src (d + 4) s (l - 4)
      else Ret (dst, d, s, l)
  end.

(** src/strlib/base64enc_str.c 5-33 *)
Definition base64enc_str (dst src : list Z) (dst_len : Z) : out (Z * list Z) :=
  let* (dst, d, s, l) := base64enc_str_loop (S (length src)) dst src 0 0 dst_len in
  if l =? 0 then Ret (0, dst)
  else
    let* dst := zwrite dst d 0 in
    let* b := zread src s in
    Ret (if b =? 0 then 1 else 0, dst).
