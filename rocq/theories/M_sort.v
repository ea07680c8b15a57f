(** Model of sblist_sort and tglist_sort.

    Simplification: libc's qsort is an argument [qs], the order in which it leaves
    the array elements it is given; reads and writes outside the block are
    undefined.  count * itemsize is what qsort walks over, without wrap. *)
From Verif Require Import Base M_sblist M_tglist.

(** the n array elements of sz bytes each at the front of b *)
Fixpoint elements (n : nat) (sz : Z) (b : list Z) : list (list Z) :=
  match n with
  | O => []
  | S n => firstn (Z.to_nat sz) b :: elements n sz (skipn (Z.to_nat sz) b)
  end.
(** src/sblist/sblist_sort.c 3-5 *)
Definition sblist_sort (qs : list (list Z) -> list (list Z)) (l : sbl) : out sbl :=
  let* b := zreads (mem l) 0 (cnt l * isz l) in
  let* m := zwrites (mem l) 0 (concat (qs (elements (Z.to_nat (cnt l)) (isz l) b))) in
  Ret (mkSbl (isz l) (bits l) (cnt l) (capa l) m).
(** include/tglist.h 146-147 *)
Definition tglist_sort {A} (qs : list A -> list A) (l : tgl A) : out (tgl A) :=
  if (tcnt l <? 0) || (zlen (tmem l) <? tcnt l) then UB
  else Ret (mkTg (tcnt l) (tcapa l) (qs (ztake (tcnt l) (tmem l)) ++ zdrop (tcnt l) (tmem l))).
