(** Model of src/stringptr/*.c (without the file functions) and filelib/getfilename.c.

    A stringptr is a memory object [sb] (a byte list), an offset [so] into it (the ptr
    member) and a size.  NULL stringptr arguments are modelled where the code tests them
    and the property is about it (stringptr_eq), elsewhere not. *)
From Verif Require Import Base.

(** include/stringptr_struct.h 6-9 *)
Record sp := mkSp { sb : list Z; so : Z; sz : Z }.

(** libc memcmp(a + i, b + j, n) == 0; both ranges must be readable *)
Definition memcmp0 (a : list Z) (i : Z) (b : list Z) (j n : Z) : out bool :=
  let* x := zreads a i n in
  let* y := zreads b j n in
  Ret (if list_eq_dec Z.eq_dec x y then true else false).
(** malloc'd block of n bytes with arbitrary content *)
Definition block (junk : Z -> Z) (n : Z) : list Z := map (fun k => junk (Z.of_nat k)) (seq 0 (Z.to_nat n)).
(** memcpy(dst + i, src + j, n) between different objects *)
Definition memcpy (dst : list Z) (i : Z) (src : list Z) (j n : Z) : out (list Z) :=
  let* x := zreads src j n in zwrites dst i x.

(** src/stringptr/stringptr_new.c 5-12; sizeof(stringptr) = 16; the block holds struct,
    text and terminator.  mal = None: malloc fails *)
Definition stringptr_new (mal : option (Z -> Z)) (size : Z) : out (option sp) :=
  match mal with
  | None => Ret None
  | Some junk =>
      let b := block junk (u64 (16 + size + 1)) in
      let* b := zwrite b (16 + size) 0 in
      Ret (Some (mkSp b 16 size))
  end.
(** src/stringptr/stringptr_here.c 4-10 *)
Definition stringptr_here (hay : sp) (bufpos : Z) (needle : sp) : out Z :=
  if sz needle <=? u64 (sz hay - bufpos) then
    let* e := memcmp0 (sb needle) (so needle) (sb hay) (so hay + bufpos) (sz needle) in
    Ret (if e then 1 else 0)
  else Ret 0.
(** src/stringptr/stringptr_contains.c 6-10 *)
Fixpoint contains_loop (fuel : nat) (hay needle : sp) (bufpos : Z) : out Z :=
  match fuel with
  | O => Fuel
  | S fuel =>
      if sz needle <=? u64 (sz hay - bufpos) then
        let* e := memcmp0 (sb needle) (so needle) (sb hay) (so hay + bufpos) (sz needle) in
        if e then Ret 1 else contains_loop fuel hay needle (u64 (bufpos + 1))
      else Ret 0
  end.
(** src/stringptr/stringptr_contains.c 4-12 *)
Definition stringptr_contains (hay needle : sp) : out Z :=
  contains_loop (S (S (Z.to_nat (sz hay)))) hay needle 0.
(** src/stringptr/stringptr_shiftleft.c 3-11 *)
Definition stringptr_shiftleft (s : sp) (count : Z) : out (Z * sp) :=
  if count <=? sz s then
    let n := sz s - count in
    let* b := zwrite (sb s) (so s + n) 0 in
    Ret (1, mkSp b (so s) n)
  else Ret (0, s).
(** src/stringptr/stringptr_shiftright.c 3-11 *)
Definition stringptr_shiftright (s : sp) (count : Z) : Z * sp :=
  if count <=? sz s then (1, mkSp (sb s) (so s + count) (sz s - count)) else (0, s).
(** src/stringptr/stringptr_chomp.c 8-13 with islb 3-5 *)
Fixpoint chomp_loop (fuel : nat) (s : sp) (res : Z) : out (Z * sp) :=
  match fuel with
  | O => Fuel
  | S fuel =>
      if sz s =? 0 then Ret (res, s)
      else
        let* c := zread (sb s) (so s + (sz s - 1)) in
        if (c =? 10) || (c =? 13) then
          let* (r, s) := stringptr_shiftleft s 1 in
          if r =? 0 then Ret (res, s) else chomp_loop fuel s (u64 (res + 1))
        else Ret (res, s)
  end.
Definition stringptr_chomp (s : sp) : out (Z * sp) := chomp_loop (S (Z.to_nat (sz s))) s 0.
(** src/stringptr/stringptr_rchr.c 4-12: char compared as int; result: index from ptr, None = NULL *)
Fixpoint rchr_loop (n : nat) (s : sp) (needle : Z) : out (option Z) :=
  match n with
  | O => Ret None
  | S n =>
      let* c := zread (sb s) (so s + Z.of_nat n) in
      if s8 c =? needle then Ret (Some (Z.of_nat n)) else rchr_loop n s needle
  end.
Definition stringptr_rchr (s : sp) (needle : Z) : out (option Z) :=
  if sz s =? 0 then Ret None else rchr_loop (Z.to_nat (sz s)) s needle.
(** src/filelib/getfilename.c 3-7 *)
Definition getfilename (path : sp) : out (option Z) :=
  let* r := stringptr_rchr path 47 in Ret (option_map (fun i => i + 1) r).

(** src/stringptr/stringptr_hash.c 8-12; uint_fast32_t has values modulo w *)
Fixpoint hash_loop (n : nat) (w : Z) (b : list Z) (p h : Z) : out Z :=
  match n with
  | O => Ret h
  | S n =>
      let* c := zread b p in
      let h := (16 * h + c) mod w in
      let h := Z.lxor h (Z.land (Z.shiftr h 24) 240) in
      hash_loop n w b (p + 1) h
  end.
(** src/stringptr/stringptr_hash.c 4-14 *)
Definition stringptr_hash (w : Z) (s : sp) : out Z :=
  let* h := hash_loop (Z.to_nat (sz s)) w (sb s) (so s) 0 in Ret (Z.land h 268435455).

(** src/stringptr/stringptr_eq.c 3-7; None = NULL *)
Definition stringptr_eq (a b : option sp) : out Z :=
  match a, b with
  | None, None => Ret 1
  | Some a, Some b =>
      if sz a =? sz b then
        let* e := memcmp0 (sb a) (so a) (sb b) (so b) (sz a) in Ret (if e then 1 else 0)
      else Ret 0
  | _, _ => Ret 0
  end.
(** src/stringptr/stringptr_copy.c 4-9: the result of stringptr_new is not checked *)
Definition stringptr_copy (mal : option (Z -> Z)) (s : sp) : out sp :=
  let* r := stringptr_new mal (sz s) in
  match r with
  | None => UB
  | Some r => let* b := memcpy (sb r) (so r) (sb s) (so s) (sz s) in Ret (mkSp b (so r) (sz r))
  end.
(** src/stringptr/stringptr_strdup.c 5-12: the block, None = NULL *)
Definition stringptr_strdup (mal : option (Z -> Z)) (s : sp) : out (option (list Z)) :=
  match mal with
  | None => Ret None
  | Some junk =>
      let* b := memcpy (block junk (u64 (sz s + 1))) 0 (sb s) (so s) (sz s) in
      let* b := zwrite b (sz s) 0 in
      Ret (Some b)
  end.
(** src/stringptr/stringptr_concat.c 14-18 *)
Definition concat_total (self : sp) (args : list sp) : Z := fold_left (fun t c => u64 (t + sz c)) args (sz self).
(** src/stringptr/stringptr_concat.c 25-30 *)
Fixpoint concat_loop (args : list sp) (b : list Z) (dest : Z) : out (list Z) :=
  match args with
  | [] => Ret b
  | c :: args =>
      let* b := memcpy b dest (sb c) (so c) (sz c) in
      concat_loop args b (dest + sz c)
  end.
(** src/stringptr/stringptr_concat.c 6-34; the variable arguments up to NULL are a list *)
Definition stringptr_concat (mal : option (Z -> Z)) (self : sp) (args : list sp) : out (option sp) :=
  let* r := stringptr_new mal (concat_total self args) in
  match r with
  | None => Ret None
  | Some r =>
      let* b := memcpy (sb r) (so r) (sb self) (so self) (sz self) in
      let* b := concat_loop args b (so r + sz self) in
      Ret (Some (mkSp b (so r) (sz r)))
  end.
