(** Model of include/tgilist.h on bytes: the index block holds unsigned objects of n bytes of
    the machine's byte order, the value block items of isz bytes, each block being that of a
    byte level tglist (M_tgbytes).

    Simplifications: those of M_tgbytes; IDX_TYPE is unsigned (C104 has the signed ones). *)
From Verif Require Import Base M_tgbytes M_endianbe.

(** tgilist.h 30-34 *)
Record bgi := mkBG { bidx : btg; bval : btg }.
(** tgilist.h 49 *)
Definition bgi_init : bgi := mkBG b_init b_init.

Section B.
(** byte order, sizeof(IDX_TYPE), sizeof(TYPE) *)
Variables (be : bool) (n : nat) (isz : Z).
(** tgilist.h 40 *)
Definition bgi_getsize (x : bgi) : Z := bcnt (bidx x).
(** tgilist.h 57: the index is loaded, then the item *)
Definition bgi_get (x : bgi) (pos : Z) : out (list Z) :=
  let* k := b_get (Z.of_nat n) (bidx x) pos in b_get isz (bval x) (load be k).
(** tgilist.h 59 *)
Definition bgi_set (x : bgi) (item : list Z) (pos : Z) : out (Z * bgi) :=
  let* k := b_get (Z.of_nat n) (bidx x) pos in
  let* (r, v) := b_set isz (bval x) item (load be k) in Ret (1, mkBG (bidx x) v).
(** tgilist.h 61-67; the size_t count is stored in an object of n bytes *)
Definition bgi_add (ai av : balloc) (x : bgi) (item : list Z) : out (Z * bgi) :=
  let* (ok, i) := b_add (Z.of_nat n) ai (bidx x) (obj be n (bcnt (bval x))) in
  if ok =? 0 then Ret (0, mkBG i (bval x))
  else
    let* (ok, v) := b_add isz av (bval x) item in
    if negb (ok =? 0) then Ret (1, mkBG i v)
    else let* (_, i) := b_delete (Z.of_nat n) i (u64 (bcnt i - 1)) in Ret (0, mkBG i v).
(** tgilist.h 70-71 *)
Definition bgi_delete (x : bgi) (pos : Z) : out (Z * bgi) :=
  let* (r, i) := b_delete (Z.of_nat n) (bidx x) pos in Ret (r, mkBG i (bval x)).
(** tgilist.h 73-79 *)
Definition bgi_insert (ai av : balloc) (x : bgi) (item : list Z) (pos : Z) : out (Z * bgi) :=
  let* (ok, v) := b_add isz av (bval x) item in
  if ok =? 0 then Ret (0, mkBG (bidx x) v)
  else
    let* (ok, i) := b_insert (Z.of_nat n) ai (bidx x) (obj be n (u64 (bcnt v - 1))) pos in
    if negb (ok =? 0) then Ret (1, mkBG i v)
    else Ret (0, mkBG i (mkB (u64 (bcnt v - 1)) (bcapa v) (bmem v))).
End B.
