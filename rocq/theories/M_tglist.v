(** Model of include/tglist.h and include/tgilist.h.

    Simplifications, valid for the whole file:
    - the block is a list of slots of the item type A; byte offsets and byte counts
      are computed as in C with 64-bit wrap and turned into slots; an offset that is not a
      multiple of the item size is treated as undefined;
    - realloc's outcome is an argument: None = failure, Some junk = success with
      [junk i] the initial value of fresh slot i;
    - sizeof(item) is the argument isz >= 1;
    - the struct itself is never NULL. *)
From Verif Require Import Base.

Section TG.
Context {A : Type}.

(** include/tglist.h 50-59, tmp left out (it holds the arguments of the running macro) *)
Record tgl := mkTg { tcnt : Z; tcapa : Z; tmem : list A }.
Definition talloc := option (Z -> A).
Definition tfresh (junk : Z -> A) (i n : Z) : list A := map (fun k => junk (i + Z.of_nat k)) (seq 0 (Z.to_nat n)).

(** tglist.h 72, 79: all zero *)
Definition tglist_init : tgl := mkTg 0 0 [].

(** tglist.h 96: items[POS] *)
Definition tglist_get (l : tgl) (pos : Z) : out A := zread (tmem l) pos.
(** tglist.h 98-99 *)
Definition tglist_set (l : tgl) (item : A) (pos : Z) : out (Z * tgl) :=
  let* m := zwrite (tmem l) pos item in Ret (1, mkTg (tcnt l) (tcapa l) m).

(** tglist.h 159-170 *)
Definition tglist_grow_if_needed (isz : Z) (al : talloc) (l : tgl) : Z * tgl :=
  if tcnt l =? tcapa l then
    let newsz := if tcapa l =? 0 then 4 else u64 (tcapa l * 2) in
    match al with
    | None => (0, l)
    | Some junk =>
      let n := u64 (newsz * isz) / isz in
      (1, mkTg (tcnt l) newsz (ztake n (tmem l) ++ tfresh junk (zlen (tmem l)) (n - zlen (tmem l))))
    end
  else (1, l).

(** tglist.h 172-177 with 116-117; memmove cannot return NULL *)
Definition tglist_memmove_impl (l : tgl) (pos1 diff isz : Z) : out (Z * tgl) :=
  let dst := u64 (pos1 * isz) in
  let src := dst + isz * diff in
  let n := u64 (u64 (tcnt l - u64 (pos1 + diff)) * isz) in
  if (dst mod isz =? 0) && (src mod isz =? 0) && (n mod isz =? 0) then
    let* m := zmove (tmem l) (dst / isz) (src / isz) (n / isz) in
    Ret (1, mkTg (tcnt l) (tcapa l) m)
  else UB.

(** tglist.h 106-109 *)
Definition tglist_prepare_addition (isz : Z) (al : talloc) (l : tgl) : Z * tgl :=
  let '(ok, l) := tglist_grow_if_needed isz al l in
  if negb (ok =? 0) then
    let c := u64 (tcnt l + 1) in ((if c =? 0 then 0 else 1), mkTg c (tcapa l) (tmem l))
  else (0, l).
(** tglist.h 111-114 *)
Definition tglist_add (isz : Z) (al : talloc) (l : tgl) (item : A) : out (Z * tgl) :=
  let '(ok, l) := tglist_prepare_addition isz al l in
  if negb (ok =? 0) then tglist_set l item (u64 (tcnt l - 1)) else Ret (0, l).
(** tglist.h 120-122 *)
Definition tglist_delete (isz : Z) (l : tgl) (pos : Z) : out (Z * tgl) :=
  let* (r, l) := tglist_memmove_impl l pos 1 isz in
  if negb (r =? 0) then Ret (1, mkTg (u64 (tcnt l - 1)) (tcapa l) (tmem l)) else Ret (0, l).
(** tglist.h 125-131 *)
Definition tglist_insert (isz : Z) (al : talloc) (l : tgl) (item : A) (pos : Z) : out (Z * tgl) :=
  let '(ok, l) := tglist_grow_if_needed isz al l in
  if negb (ok =? 0) then
    let* (r, l) := tglist_memmove_impl l (u64 (pos + 1)) (-1) isz in
    let l := mkTg (u64 (tcnt l + 1)) (tcapa l) (tmem l) in
    if (r =? 0) || (tcnt l =? 0) then Ret (0, l) else tglist_set l item pos
  else Ret (0, l).

(** tglist.h 179-199: the comparator reads the item at c *)
Fixpoint tg_pos_loop (fuel : nat) (cmp : A -> A -> Z) (l : tgl) (o : A) (hi lo : Z) : out Z :=
  match fuel with
  | O => Fuel
  | S fuel =>
      let c := u64 (hi + u64 (lo - hi) / 2) in
      let* p := tglist_get l c in
      let r := cmp o p in
      if hi =? lo then Ret (if 0 <? r then u64 (lo + 1) else lo)
      else
        let '(hi, lo) :=
          if r <? 0 then (hi, if c =? 0 then 0 else u64 (c - 1))
          else if 0 <? r then (u64 (c + 1), lo)
          else (c, c) in
        let hi := if lo <? hi then lo else hi in
        tg_pos_loop fuel cmp l o hi lo
  end.
Definition tglist_sorted_insert_pos_impl (cmp : A -> A -> Z) (l : tgl) (o : A) : out Z :=
  if tcnt l =? 0 then Ret 0 else tg_pos_loop (S (Z.to_nat (tcnt l))) cmp l o 0 (u64 (tcnt l - 1)).
(** tglist.h 201-206, 151-153 with 134-139 (insert_memcpy: as tglist_insert, value copied) *)
Definition tglist_insert_sorted (isz : Z) (al : talloc) (cmp : A -> A -> Z) (l : tgl) (item : A) : out (Z * tgl) :=
  let* idx := tglist_sorted_insert_pos_impl cmp l item in
  if idx =? SIZE_MAX then Ret (idx, l)
  else
    let* (ok, l) := tglist_insert isz al l item idx in
    if negb (ok =? 0) then Ret (idx, l) else Ret (SIZE_MAX, l).
End TG.
Arguments tgl A : clear implicits.
Arguments talloc A : clear implicits.

(** ---------- include/tgilist.h ---------- *)
Section TGI.
Context {A : Type}.
(** tgilist.h 30-34; the index type holds values modulo [im] (2^32 for unsigned) *)
Record tgi := mkTgi { gidx : tgl Z; gval : tgl A }.
Definition tgilist_init : tgi := mkTgi tglist_init tglist_init.
(** tgilist.h 40 *)
Definition tgilist_getsize (x : tgi) : Z := tcnt (gidx x).
(** tgilist.h 57 *)
Definition tgilist_get (x : tgi) (pos : Z) : out A :=
  let* k := tglist_get (gidx x) pos in tglist_get (gval x) k.
(** tgilist.h 59 *)
Definition tgilist_set (x : tgi) (item : A) (pos : Z) : out (Z * tgi) :=
  let* k := tglist_get (gidx x) pos in
  let* (r, v) := tglist_set (gval x) item k in Ret (1, mkTgi (gidx x) v).
(** tgilist.h 61-67; ai, av: outcomes of the allocations for index and values *)
Definition tgilist_add (im ksz isz : Z) (ai : talloc Z) (av : talloc A) (x : tgi) (item : A) : out (Z * tgi) :=
  let* (ok, i) := tglist_add ksz ai (gidx x) (tcnt (gval x) mod im) in
  if ok =? 0 then Ret (0, mkTgi i (gval x))
  else
    let* (ok, v) := tglist_add isz av (gval x) item in
    if negb (ok =? 0) then Ret (1, mkTgi i v)
    else let* (_, i) := tglist_delete ksz i (u64 (tcnt i - 1)) in Ret (0, mkTgi i v).
(** tgilist.h 70-71 *)
Definition tgilist_delete (ksz : Z) (x : tgi) (pos : Z) : out (Z * tgi) :=
  let* (r, i) := tglist_delete ksz (gidx x) pos in Ret (r, mkTgi i (gval x)).
(** tgilist.h 73-79 *)
Definition tgilist_insert (im ksz isz : Z) (ai : talloc Z) (av : talloc A) (x : tgi) (item : A) (pos : Z) : out (Z * tgi) :=
  let* (ok, v) := tglist_add isz av (gval x) item in
  if ok =? 0 then Ret (0, mkTgi (gidx x) v)
  else
    let* (ok, i) := tglist_insert ksz ai (gidx x) (u64 (tcnt v - 1) mod im) pos in
    if negb (ok =? 0) then Ret (1, mkTgi i v)
    else Ret (0, mkTgi i (mkTg (u64 (tcnt v - 1)) (tcapa v) (tmem v))).
End TGI.
Arguments tgi A : clear implicits.
