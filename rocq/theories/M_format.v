(** Model of src/format/ulz_vsnprintf.c and ulz_snprintf.c.

    va_list: the remaining arguments, 32 bit integers, 64 bit integers (long, long long, size_t;
    also pointers printed by %p) and strings; va_arg with another kind is UB, a change of
    signedness is not.  The number of bytes written (ssize_t res) is assumed not to overflow. *)
From Verif Require Import Base Cstr M_str M_num.

Inductive arg := VInt (x : Z) | VLong (x : Z) | VStr (s : option (list Z)).
Definition arg_int (args : list arg) : out (Z * list arg) := match args with VInt x :: args => Ret (x, args) | _ => UB end.
Definition arg_long (args : list arg) : out (Z * list arg) := match args with VLong x :: args => Ret (u64 x, args) | _ => UB end.
Definition arg_str (args : list arg) : out (option (list Z) * list arg) := match args with VStr s :: args => Ret (s, args) | _ => UB end.

(** where the output goes: dest (None: NULL), o - dest, omax - dest, res *)
Record sink := mkSink { dst : option (list Z); o_ : Z; omax : Z; res : Z }.
(** ulz_vsnprintf.c 42-46, 102-106 *)
Definition put (k : sink) (c : Z) : out sink :=
  match dst k with
  | Some d =>
      if o_ k <? omax k then let* d := zwrite d (o_ k) c in Ret (mkSink (Some d) (o_ k + 1) (omax k) (res k + 1))
      else Ret k
  | None => Ret (mkSink None (o_ k) (omax k) (res k + 1))
  end.

(** the rest is independent of where the output goes *)
Section Output.
Context {A : Type} (emit : A -> Z -> out A).

(** ulz_vsnprintf.c 41-48: strmove, ins not NULL *)
Fixpoint strmove (fuel : nat) (ins : list Z) (pos : Z) (k : A) : out A :=
  match fuel with
  | O => Fuel
  | S fuel =>
      let* c := zread ins pos in
      if c =? 0 then Ret k else let* k := emit k c in strmove fuel ins (pos + 1) k
  end.
Definition strmove0 (ins : list Z) (pos : Z) (k : A) : out A := strmove (S (length ins)) ins pos k.
(** ulz_vsnprintf.c 60-64: nconv; the flags, base and width are reset by it.  None: goto fail *)
Definition nconv (inn base width nflags : Z) (cbuf : list Z) (k : A) : out (option (list Z * A)) :=
  let nflags := if negb (width =? 0) then Z.lor nflags 1 else nflags in
  let* r := numberToString inn base cbuf width nflags in
  match r with
  | None => Ret None
  | Some (ins, cbuf) => let* k := strmove0 cbuf ins k in Ret (Some (cbuf, k))
  end.
(** ulz_vsnprintf.c 28: the number of digits at a + i *)
Fixpoint digits (fuel : nat) (fmt : list Z) (a i : Z) : out Z :=
  match fuel with
  | O => Fuel
  | S fuel => let* c := zread fmt (a + i) in if isNumber c =? 1 then digits fuel fmt a (i + 1) else Ret i
  end.
(** ulz_vsnprintf.c 34: n more rounds *)
Fixpoint width_loop (n : nat) (fmt : list Z) (a i j width : Z) : out Z :=
  match n with
  | O => Ret width
  | S n =>
      let* c := zread fmt (a + j) in
      width_loop n fmt a i (j + 1) (u64 (width + (c - 48) * (if negb (j =? 0) then 10 * (i - 1 - j) else 1)))
  end.
(** ulz_vsnprintf.c 18-108.  md: at the label checkmod (a still before the ++a), else at the loop's
    condition.  The result is true if the function fails *)
Fixpoint fmt_loop (fuel : nat) (fmt : list Z) (md : bool) (a : Z) (args : list arg) (width : Z) (cbuf : list Z) (k : A) : out (bool * A) :=
  match fuel with
  | O => Fuel
  | S fuel =>
      let conv (a : Z) (args : list arg) (inn base nflags : Z) :=
        let* r := nconv inn base width nflags cbuf k in
        match r with
        | None => Ret (true, k)
        | Some (cbuf, k) => fmt_loop fuel fmt false (a + 1) args 0 cbuf k
        end in
      if negb md then
        let* c := zread fmt a in
        if c =? 0 then Ret (false, k)
        else if c =? 37 then fmt_loop fuel fmt true a args width cbuf k
        else let* k := emit k c in fmt_loop fuel fmt false (a + 1) args width cbuf k
      else
        let a := a + 1 in
        let* c := zread fmt a in
        if c =? 37 then let* k := emit k c in fmt_loop fuel fmt false (a + 1) args width cbuf k
        else if c =? 46 then
          let* i := digits (S (length fmt)) fmt (a + 1) 0 in
          if i =? 0 then Ret (true, k)
          else let* w := width_loop (Z.to_nat i) fmt (a + 1) i 0 0 in fmt_loop fuel fmt true (a + i) args w cbuf k
        else if c =? 115 then
          let* (ins, args) := arg_str args in
          match ins with
          | None => Ret (true, k)
          | Some s => let* k := strmove0 s 0 k in fmt_loop fuel fmt false (a + 1) args width cbuf k
          end
        else if c =? 99 then
          let* (x, args) := arg_int args in
          let* cbuf := zwrite cbuf 0 (u8 x) in
          let* cbuf := zwrite cbuf 1 0 in
          let* k := strmove0 cbuf 0 k in fmt_loop fuel fmt false (a + 1) args width cbuf k
        else if c =? 100 then let* (x, args) := arg_int args in conv a args (u64 (s32 x)) 10 2
        else if (c =? 108) || (c =? 122) then
          let* c1 := (if c =? 108 then zread fmt (a + 1) else Ret 0) in
          let a := if c1 =? 108 then a + 1 else a in
          let a := a + 1 in
          let* t := zread fmt a in
          let nflags := if t =? 100 then 2 else 0 in
          if (nflags =? 0) && negb (t =? 117) then Ret (true, k)
          else let* (x, args) := arg_long args in conv a args x 10 nflags
        else if c =? 112 then let* (x, args) := arg_long args in conv a args x 16 0
        else if c =? 117 then let* (x, args) := arg_int args in conv a args (u32 x) 10 0
        else if (c =? 120) || (c =? 88) then
          let* (x, args) := arg_int args in conv a args (u64 (s32 x)) 16 (if c =? 120 then 4 else 0)
        else Ret (true, k)
  end.
End Output.
(** ulz_vsnprintf.c 9-111.  The result is the returned number and the buffer.  cbuf: the local
    buffer of 32 bytes, not initialised *)
Definition ulz_vsnprintf (dest : option (list Z)) (destsize : Z) (format : list Z) (args : list arg) (cbuf : list Z) : out (Z * option (list Z)) :=
  let* (failed, k) := fmt_loop put (2 * length format + 2) format false 0 args 0 cbuf (mkSink dest 0 (destsize - 1) 0) in
  if (failed : bool) then Ret (-1, dst k)
  else
    match dst k with
    | Some d => let* d := zwrite d (o_ k) 0 in Ret (res k, Some d)
    | None => Ret (res k, None)
    end.
(** ulz_snprintf.c 5-11 *)
Definition ulz_snprintf := ulz_vsnprintf.
