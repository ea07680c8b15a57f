(** Model of adding an item of a list to the same list: the sources of M_sblist and M_tglist again, for an item
    argument that is a pointer into the block (sblist) or an expression reading the list (tglist, tgilist). *)
From Verif Require Import Base M_sblist M_tglist.

(** memcpy(items + dst, items + src, n): undefined if the areas overlap (C11 7.24.2.1) *)
Definition memcpy_own (m : list Z) (dst src n : Z) : out (list Z) :=
  if (dst <? src + n) && (src <? dst + n) then UB else let* x := zreads m src n in zwrites m dst x.
(** src/sblist/sblist.c 52-56 *)
Definition sblist_set_own (l : sbl) (off pos : Z) : out (Z * sbl) :=
  if cnt l <=? pos then Ret (0, l)
  else
    let* m := memcpy_own (mem l) (item_off l pos) off (isz l) in
    Ret (1, mkSbl (isz l) (bits l) (cnt l) (capa l) m).
(** src/sblist/sblist.c 69-73; after realloc the pointer is one into a freed block *)
Definition sblist_add_own (al : alloc) (l : sbl) (off : Z) : out (Z * sbl) :=
  let moved := cnt l =? capa l in
  let '(ok, l) := sblist_grow_if_needed al l in
  if ok =? 0 then Ret (0, l)
  else if moved then UB
  else let l := inc_count l in sblist_set_own l off (u64 (cnt l - 1)).
(** src/sblist/sblist_insert.c 4-9 *)
Definition sblist_insert_own (al : alloc) (l : sbl) (off pos : Z) : out (Z * sbl) :=
  let moved := cnt l =? capa l in
  let '(ok, l) := sblist_grow_if_needed al l in
  if ok =? 0 then Ret (0, l)
  else
    let* m := zmove (mem l) (item_off l (u64 (pos + 1))) (item_off l pos) (u64 (u64 (cnt l - pos) * isz l)) in
    let l := inc_count (mkSbl (isz l) (bits l) (cnt l) (capa l) m) in
    if moved then UB else sblist_set_own l off pos.

Section TG.
Context {A : Type}.
(** include/tglist.h 98-99, 111-114: ITEM is tglist_get(X, i), evaluated in tglist_set *)
Definition tglist_add_own (isz : Z) (al : talloc A) (l : tgl A) (i : Z) : out (Z * tgl A) :=
  let '(ok, l) := tglist_prepare_addition isz al l in
  if negb (ok =? 0) then let* x := tglist_get l i in tglist_set l x (u64 (tcnt l - 1)) else Ret (0, l).
(** tglist.h 125-131 *)
Definition tglist_insert_own (isz : Z) (al : talloc A) (l : tgl A) (i pos : Z) : out (Z * tgl A) :=
  let '(ok, l) := tglist_grow_if_needed isz al l in
  if negb (ok =? 0) then
    let* (r, l) := tglist_memmove_impl l (u64 (pos + 1)) (-1) isz in
    let l := mkTg (u64 (tcnt l + 1)) (tcapa l) (tmem l) in
    if (r =? 0) || (tcnt l =? 0) then Ret (0, l) else let* x := tglist_get l i in tglist_set l x pos
  else Ret (0, l).
(** include/tgilist.h 61-67 with ITEM = tgilist_get(X, i) = items.items[index.items[i]]; the value is read when
    the index has been extended and the values have grown *)
Definition tgilist_add_own (im ksz isz : Z) (ai : talloc Z) (av : talloc A) (x : tgi A) (i : Z) : out (Z * tgi A) :=
  let* (ok, ix) := tglist_add ksz ai (gidx x) (tcnt (gval x) mod im) in
  if ok =? 0 then Ret (0, mkTgi ix (gval x))
  else
    let '(ok, v) := tglist_prepare_addition isz av (gval x) in
    let* (ok, v) := (if negb (ok =? 0) then let* k := tglist_get ix i in let* y := tglist_get v k in tglist_set v y (u64 (tcnt v - 1)) else Ret (0, v)) in
    if negb (ok =? 0) then Ret (1, mkTgi ix v)
    else let* (_, ix) := tglist_delete ksz ix (u64 (tcnt ix - 1)) in Ret (0, mkTgi ix v).
(** tgilist.h 73-79 *)
Definition tgilist_insert_own (im ksz isz : Z) (ai : talloc Z) (av : talloc A) (x : tgi A) (i pos : Z) : out (Z * tgi A) :=
  let '(ok, v) := tglist_prepare_addition isz av (gval x) in
  let* (ok, v) := (if negb (ok =? 0) then let* k := tglist_get (gidx x) i in let* y := tglist_get v k in tglist_set v y (u64 (tcnt v - 1)) else Ret (0, v)) in
  if ok =? 0 then Ret (0, mkTgi (gidx x) v)
  else
    let* (ok, ix) := tglist_insert ksz ai (gidx x) (u64 (tcnt v - 1) mod im) pos in
    if negb (ok =? 0) then Ret (1, mkTgi ix v)
    else Ret (0, mkTgi ix (mkTg (u64 (tcnt v - 1)) (tcapa v) (tmem v))).
End TG.
