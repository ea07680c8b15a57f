(** Model of include/tglist.h on bytes: the block is the list of its bytes, an item a string
    of isz bytes, and nothing is converted to slots (M_tglist does that).

    Simplifications: realloc's outcome is an argument, None = failure, Some junk = success
    with [junk i] the initial value of fresh byte i; the struct itself is never NULL. *)
From Verif Require Import Base M_tglist.

(** tglist.h 50-59 *)
Record btg := mkB { bcnt : Z; bcapa : Z; bmem : list Z }.
Definition balloc := option (Z -> Z).
(** tglist.h 72, 79 *)
Definition b_init : btg := mkB 0 0 [].

Section B.
Variable isz : Z.
(** tglist.h 96: the bytes of items[POS] *)
Definition b_get (l : btg) (pos : Z) : out (list Z) := zreads (bmem l) (pos * isz) isz.
(** tglist.h 98-99 *)
Definition b_set (l : btg) (item : list Z) (pos : Z) : out (Z * btg) :=
  let* m := zwrites (bmem l) (pos * isz) item in Ret (1, mkB (bcnt l) (bcapa l) m).
(** tglist.h 159-170 *)
Definition b_grow (al : balloc) (l : btg) : Z * btg :=
  if bcnt l =? bcapa l then
    let newsz := if bcapa l =? 0 then 4 else u64 (bcapa l * 2) in
    match al with
    | None => (0, l)
    | Some junk =>
      let n := u64 (newsz * isz) in
      (1, mkB (bcnt l) newsz (ztake n (bmem l) ++ tfresh junk (zlen (bmem l)) (n - zlen (bmem l))))
    end
  else (1, l).
(** tglist.h 172-177 with 116-117 *)
Definition b_memmove (l : btg) (pos1 diff : Z) : out (Z * btg) :=
  let dst := u64 (pos1 * isz) in
  let src := dst + isz * diff in
  let n := u64 (u64 (bcnt l - u64 (pos1 + diff)) * isz) in
  let* m := zmove (bmem l) dst src n in Ret (1, mkB (bcnt l) (bcapa l) m).
(** tglist.h 106-114 *)
Definition b_add (al : balloc) (l : btg) (item : list Z) : out (Z * btg) :=
  let '(ok, l) := b_grow al l in
  if negb (ok =? 0) then
    let c := u64 (bcnt l + 1) in
    let l := mkB c (bcapa l) (bmem l) in
    if negb (c =? 0) then b_set l item (u64 (c - 1)) else Ret (0, l)
  else Ret (0, l).
(** tglist.h 120-122 *)
Definition b_delete (l : btg) (pos : Z) : out (Z * btg) :=
  let* (r, l) := b_memmove l pos 1 in
  if negb (r =? 0) then Ret (1, mkB (u64 (bcnt l - 1)) (bcapa l) (bmem l)) else Ret (0, l).
(** tglist.h 125-131 *)
Definition b_insert (al : balloc) (l : btg) (item : list Z) (pos : Z) : out (Z * btg) :=
  let '(ok, l) := b_grow al l in
  if negb (ok =? 0) then
    let* (r, l) := b_memmove l (u64 (pos + 1)) (-1) in
    let l := mkB (u64 (bcnt l + 1)) (bcapa l) (bmem l) in
    if (r =? 0) || (bcnt l =? 0) then Ret (0, l) else b_set l item pos
  else Ret (0, l).
(** tglist.h 134-139: memcpy instead of the assignment; its result is not NULL *)
Definition b_insert_memcpy (al : balloc) (l : btg) (item : list Z) (pos : Z) : out (Z * btg) :=
  let '(ok, l) := b_grow al l in
  if negb (ok =? 0) then
    let* (r, l) := b_memmove l (u64 (pos + 1)) (-1) in
    let l := mkB (u64 (bcnt l + 1)) (bcapa l) (bmem l) in
    if (r =? 0) || (bcnt l =? 0) then Ret (0, l)
    else let* m := zwrites (bmem l) (u64 (pos * isz)) item in Ret (1, mkB (bcnt l) (bcapa l) m)
  else Ret (0, l).
(** tglist.h 179-199 *)
Fixpoint b_pos_loop (fuel : nat) (cmp : list Z -> list Z -> Z) (l : btg) (o : list Z) (hi lo : Z) : out Z :=
  match fuel with
  | O => Fuel
  | S fuel =>
      let c := u64 (hi + u64 (lo - hi) / 2) in
      let* p := zreads (bmem l) (u64 (c * isz)) isz in
      let r := cmp o p in
      if hi =? lo then Ret (if 0 <? r then u64 (lo + 1) else lo)
      else
        let '(hi, lo) :=
          if r <? 0 then (hi, if c =? 0 then 0 else u64 (c - 1))
          else if 0 <? r then (u64 (c + 1), lo)
          else (c, c) in
        let hi := if lo <? hi then lo else hi in
        b_pos_loop fuel cmp l o hi lo
  end.
Definition b_sorted_pos (cmp : list Z -> list Z -> Z) (l : btg) (o : list Z) : out Z :=
  if bcnt l =? 0 then Ret 0 else b_pos_loop (S (Z.to_nat (bcnt l))) cmp l o 0 (u64 (bcnt l - 1)).
(** tglist.h 201-206 *)
Definition b_insert_sorted (al : balloc) (cmp : list Z -> list Z -> Z) (l : btg) (item : list Z) : out (Z * btg) :=
  let* idx := b_sorted_pos cmp l item in
  if idx =? SIZE_MAX then Ret (idx, l)
  else
    let* (ok, l) := b_insert_memcpy al l item idx in
    if negb (ok =? 0) then Ret (idx, l) else Ret (SIZE_MAX, l).
End B.
