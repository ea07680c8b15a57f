(** Model of src/strlib/raw2hex.c, hex2raw.c, hexval.c. *)
From Verif Require Import Base Cstr.

(** src/strlib/raw2hex.c 6: "0123456789abcdef" *)
Definition hextab : list Z := [48; 49; 50; 51; 52; 53; 54; 55; 56; 57; 97; 98; 99; 100; 101; 102].

(** src/strlib/raw2hex.c 7-10; the loop runs len - i more times *)
Fixpoint raw2hex_loop (n : nat) (dst src : list Z) (i o : Z) : out (list Z) :=
  match n with
  | O => zwrite dst o 0
  | S n =>
      let* b := zread src i in
      let* h := zread hextab (Z.land 15 (Z.shiftr b 4)) in
      let* dst := zwrite dst (o + 0) h in
      let* h := zread hextab (Z.land 15 b) in
      let* dst := zwrite dst (o + 1) h in
      raw2hex_loop n dst src (i + 1) (o + 2)
  end.
(** src/strlib/raw2hex.c 4-12 *)
Definition raw2hex (dst src : list Z) (len : Z) : out (list Z) := raw2hex_loop (Z.to_nat len) dst src 0 0.

(** src/strlib/hex2raw.c 4-24 *)
Definition hval (c : Z) : Z :=
  if c =? 48 then 0 else if c =? 49 then 1 else if c =? 50 then 2 else if c =? 51 then 3
  else if c =? 52 then 4 else if c =? 53 then 5 else if c =? 54 then 6 else if c =? 55 then 7
  else if c =? 56 then 8 else if c =? 57 then 9
  else if (c =? 97) || (c =? 65) then 10 else if (c =? 98) || (c =? 66) then 11
  else if (c =? 99) || (c =? 67) then 12 else if (c =? 100) || (c =? 68) then 13
  else if (c =? 101) || (c =? 69) then 14 else if (c =? 102) || (c =? 70) then 15 else -1.

(** src/strlib/hex2raw.c 34-42; left shift of a negative int is undefined *)
Fixpoint hex2raw_loop (fuel : nat) (hex out_ : list Z) (h o : Z) : out (list Z) :=
  match fuel with
  | O => Fuel
  | S fuel =>
      let* x := zread hex h in
      if x =? 0 then Ret out_
      else
        let c := hval x in
        if c <? 0 then UB
        else
          let c := Z.shiftl c 4 in
          let* y := zread hex (h + 1) in
          let c := Z.lor c (hval y) in
          let* out_ := zwrite out_ o (u8 c) in
          hex2raw_loop fuel hex out_ (h + 2) (o + 1)
  end.
(** src/strlib/hex2raw.c 26-44; returns (l/2, out) *)
Definition hex2raw (hex out_ : list Z) : out (Z * list Z) :=
  let* l := strlen hex 0 in
  let* (out_, h, o, l) :=
    (if Z.land l 1 =? 1 then
       let* x := zread hex 0 in
       let* out_ := zwrite out_ 0 (u8 (hval x)) in
       Ret (out_, 1, 1, l + 1)
     else Ret (out_, 0, 0, l)) in
  let* out_ := hex2raw_loop (S (length hex)) hex out_ h o in
  Ret (l / 2, out_).

(** src/strlib/hexval.c 3-15, on the value of the char *)
Definition hexval (c : Z) : Z :=
  if (65 <=? c) && (c <=? 70) then 10 + (c - 65)
  else if (97 <=? c) && (c <=? 102) then 10 + (c - 97)
  else if (48 <=? c) && (c <=? 57) then c - 48 else 0.
