(** Model of src/strlib/numberToString.c, conv_cypher.c, intToString.c,
    uintToString.c, int64ToString.c, uint64ToString.c, itoa.c, utoa.c, strtoint.c,
    strtoint64.c.  Buffers are byte lists; a returned char* into the buffer is its
    offset.  NULL buffers (an immediate return) are not modelled. *)
From Verif Require Import Base Cstr.

(** src/strlib/conv_cypher.c 3 *)
Definition conv_cypher : list Z :=
  [48; 49; 50; 51; 52; 53; 54; 55; 56; 57;
   65; 66; 67; 68; 69; 70; 71; 72; 73; 74; 75; 76; 77; 78; 79; 80; 81; 82; 83; 84; 85; 86; 87; 88; 89; 90;
   97; 98; 99; 100; 101; 102; 103; 104; 105; 106; 107; 108; 109; 110; 111; 112; 113; 114; 115; 116; 117; 118;
   119; 120; 121; 122; 0].
(** src/strlib/conv_cypher.c 4 *)
Definition conv_cypher_len : Z := zlen conv_cypher - 1.

(** src/strlib/numberToString.c 26-29 *)
Fixpoint nts_lentest (fuel : nat) (lentest base len : Z) : out Z :=
  match fuel with
  | O => Fuel
  | S fuel =>
      if lentest =? 0 then Ret len
      else if base =? 0 then UB
      else nts_lentest fuel (lentest / base) base (len + 1)
  end.
(** src/strlib/numberToString.c 37: i from [i], n more rounds *)
Fixpoint nts_fill (n : nat) (buf : list Z) (result i : Z) : out (list Z) :=
  match n with
  | O => Ret buf
  | S n => let* buf := zwrite buf (result + i) 48 in nts_fill n buf result (i + 1)
  end.
(** src/strlib/numberToString.c 44-54 *)
Fixpoint nts_digits (fuel : nat) (buf : list Z) (number base result len flags : Z) : out (list Z) :=
  match fuel with
  | O => Fuel
  | S fuel =>
      if negb (number =? 0) && negb (len =? 0) then
        if base =? 0 then UB
        else
          let i := number mod base in
          let* c := (if negb (negb (Z.land flags 4 =? 0) && (base <=? 36) && (10 <=? i) && (i <? 36))
                     then zread conv_cypher i else zread conv_cypher (i + 26)) in
          let* buf := zwrite buf (result + (len - 1)) c in
          nts_digits fuel buf ((number - i) / base) base result (len - 1) flags
      else Ret buf
  end.
(** src/strlib/numberToString.c 56-59; shr is an int *)
Fixpoint nts_strip (n : nat) (buf : list Z) (result i shr : Z) : out Z :=
  match n with
  | O => Ret shr
  | S n =>
      let* c := zread buf (result + i) in
      if c =? 48 then let* shr := int_r (shr + 1) in nts_strip n buf result (i + 1) shr
      else Ret shr
  end.
(** src/strlib/numberToString.c 13-69; None is NULL, else (result - buffer, buffer).
    [!flags & NTS_PAD] parses as [(!flags) & 1]. *)
Definition numberToString (number base : Z) (buffer : list Z) (maxlen flags : Z)
  : out (option (Z * list Z)) :=
  if negb (base mod 2 =? 0) || (conv_cypher_len <? base) then Ret None
  else
    let hasSign := negb (Z.land flags 2 =? 0) && (Z.shiftr number 63 =? 1) in
    let number := if hasSign then u64 (u64 (Z.lnot number) + 1) else number in
    let notpad := Z.land (if flags =? 0 then 1 else 0) 1 in
    let* len :=
      (if maxlen =? 0 then
         let* len := nts_lentest 65 number base 0 in
         Ret (if len =? 0 then 1 else len)
       else Ret maxlen) in
    let tmp := len in
    let result := if hasSign then 1 else 0 in
    let* buffer := nts_fill (Z.to_nat len) buffer result 0 in
    let* buffer := zwrite buffer (result + len) 0 in
    if number =? 0 then
      Ret (Some (if negb (notpad =? 0) then result + (len - 1) else result, buffer))
    else
      let* buffer := nts_digits 65 buffer number base result len flags in
      let* result :=
        (if negb (notpad =? 0) then
           let* shr := nts_strip (Z.to_nat tmp) buffer result 0 0 in
           let shr := if hasSign then shr - 1 else shr in
           Ret (result + shr)
         else if hasSign then Ret (result - 1) else Ret result) in
      let* buffer := (if hasSign then zwrite buffer result 45 else Ret buffer) in
      Ret (Some (result, buffer)).

(** src/strlib/intToString.c 4-7: the conversion to uint64_t sign-extends *)
Definition intToString (number : Z) (buffer : list Z) := numberToString (u64 number) 10 buffer 0 2.
(** src/strlib/uintToString.c 4-7 *)
Definition uintToString (number : Z) (buffer : list Z) := numberToString number 10 buffer 0 0.
(** src/strlib/int64ToString.c 4-7 *)
Definition int64ToString (number : Z) (buffer : list Z) := numberToString (u64 number) 10 buffer 0 2.
(** src/strlib/uint64ToString.c 4-7 *)
Definition uint64ToString (number : Z) (buffer : list Z) := numberToString number 10 buffer 0 0.

(** src/strlib/itoa.c 22-25 and utoa.c 15-18: C division truncates *)
Fixpoint xtoa_len (fuel : nat) (lentest len : Z) : out Z :=
  match fuel with
  | O => Fuel
  | S fuel =>
      let len := len + 1 in
      let lentest := Z.quot lentest 10 in
      if lentest =? 0 then Ret len else xtoa_len fuel lentest len
  end.
(** src/strlib/itoa.c 27-33 and utoa.c 20-26; number is non-negative here *)
Fixpoint xtoa_digits (fuel : nat) (buffer : list Z) (number start len : Z) : out (list Z) :=
  match fuel with
  | O => Fuel
  | S fuel =>
      let i := Z.rem number 10 in
      let* buffer := zwrite buffer (start + len - 1) (48 + i) in
      let number := Z.quot (number - i) 10 in
      if number =? 0 then Ret buffer else xtoa_digits fuel buffer number start (len - 1)
  end.
(** src/strlib/itoa.c 11-35; [number >> 31] is arithmetic: non-zero iff negative *)
Definition itoa (number : Z) (buffer : list Z) : out (list Z) :=
  let* (number, buffer, start) :=
    (if negb (Z.shiftr number 31 =? 0) then
       let* n := int_r (number * -1) in
       let* b := zwrite buffer 0 45 in
       Ret (n, b, 1)
     else Ret (number, buffer, 0)) in
  let* len := xtoa_len 11 number 0 in
  let* buffer := zwrite buffer (start + len) 0 in
  xtoa_digits 11 buffer number start len.
(** src/strlib/utoa.c 11-28: lentest is an int *)
Definition utoa (number : Z) (buffer : list Z) : out (list Z) :=
  let* len := xtoa_len 11 (s32 number) 0 in
  let* buffer := zwrite buffer (0 + len) 0 in
  xtoa_digits 11 buffer number 0 len.

(** src/strlib/strtoint.c 8-11: i from [i] down to [lo]; n rounds.  mul is a
    ssize_t; the sum is computed as ssize_t and converted to int *)
Fixpoint strtoint_loop (n : nat) (str : list Z) (i mul result : Z) : out Z :=
  match n with
  | O => Ret result
  | S n =>
      let* c := zread str i in
      let* prod := i64_r ((s8 c - 48) * mul) in
      let* sum := i64_r (result + prod) in
      let* mul := i64_r (mul * 10) in
      strtoint_loop n str (i - 1) mul (s32 sum)
  end.
(** src/strlib/strtoint.c 3-14 *)
Definition strtoint (str : list Z) (len : Z) : out Z :=
  if len =? 0 then Ret 0
  else
    let* c := zread str 0 in
    let lo := if c =? 45 then 1 else 0 in
    let* result := strtoint_loop (Z.to_nat (len - lo)) str (len - 1) 1 0 in
    if c =? 45 then int_r (result * -1) else Ret result.
(** src/strlib/strtoint64.c 8-11 *)
Fixpoint strtoint64_loop (n : nat) (str : list Z) (i mul result : Z) : out Z :=
  match n with
  | O => Ret result
  | S n =>
      let* c := zread str i in
      let* prod := i64_r ((s8 c - 48) * mul) in
      let* sum := i64_r (result + prod) in
      let* mul := i64_r (mul * 10) in
      strtoint64_loop n str (i - 1) mul sum
  end.
(** src/strlib/strtoint64.c 3-14 *)
Definition strtoint64 (str : list Z) (len : Z) : out Z :=
  if len =? 0 then Ret 0
  else
    let* c := zread str 0 in
    let lo := if c =? 45 then 1 else 0 in
    let* result := strtoint64_loop (Z.to_nat (len - lo)) str (len - 1) 1 0 in
    if c =? 45 then i64_r (result * -1) else Ret result.
