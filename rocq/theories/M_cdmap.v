(** Model of examples/codedup.c, the search and the report with the map `dupes' of hbmap.h instead of
    the list of bindings of M_codedup.  The lists of the map are allocated with tglist_new; a pointer to
    the k-th of them is the number k, heap has their contents.  The rest as in M_codedup.  kj, vj: the
    bytes realloc adds to keys and values.  bs: bsearch(3). *)
From Verif Require Import Base Cstr M_tglist M_bmap M_codedup.

(** codedup.c 23-27; no overflow for line numbers *)
Definition intcmp (a b : Z) : Z := a - b.
(** codedup.c 45: int to unsigned *)
Definition inthash (i : Z) : Z := u32 i.
(** codedup.c 85: hbmap(int, sortitem_list*, 1024) *)
Definition vptr : vops Z (tgl Z) (talloc Z) := vops_tglist Z 8.
Definition hmap : Type := list (bmap Z (tgl Z)).
Definition heap : Type := list (tgl (Z * Z)).

Section Search.
Variables (L : list (Z * list Z)) (bl : Z) (junk : Z -> Z * Z) (kj vj : Z -> Z) (bs : (Z -> Z) -> list Z -> option Z).

(** codedup.c 131-143 *)
Definition hnote (h : hmap) (hp : heap) (i j n : Z) : out (hmap * heap) :=
  let* hi := hbmap_find intcmp bs inthash h i in
  let* (p, hp) := if hi =? SIZE_MAX then Ret (zlen hp, hp ++ [tglist_init]) else let* p := hbmap_getval vptr h hi in Ret (p, hp) in
  let* dlist := zread hp p in
  let* (_, dlist) := tglist_insert_sorted 8 (Some junk) sortitem_cmp dlist (n, j) in
  let* hp := zwrite hp p dlist in
  if hi =? SIZE_MAX then let* (_, h) := hbmap_insert vptr 4 intcmp bs inthash (Some kj) (Some vj) h i p in Ret (h, hp)
  else Ret (h, hp).
(** codedup.c 120-151 *)
Fixpoint hj_loop (fuel : nat) (i j : Z) (h : hmap) (hp : heap) (dupe_count longest : Z) : out (hmap * heap * Z * Z) :=
  match fuel with
  | O => Fuel
  | S fuel =>
      if u64 (j + bl) <? zlen L then
        let* n := cmp_loop L bl (S fuel) i j 0 in
        if n =? bl then
          let* n := ext_loop L (S fuel) i j n in
          let* (h, hp) := hnote h hp i j n in
          hj_loop fuel i (u64 (j + (if n =? 0 then 1 else n))) h hp (dupe_count + 1) (if longest <? n then n else longest)
        else hj_loop fuel i (u64 (j + (if n =? 0 then 1 else n))) h hp dupe_count longest
      else Ret (h, hp, dupe_count, longest)
  end.
(** codedup.c 116-154 *)
Fixpoint hi_loop (fuel : nat) (i : Z) (h : hmap) (hp : heap) : out (hmap * heap) :=
  match fuel with
  | O => Fuel
  | S fuel =>
      if i <? zlen L then
        let* (h, hp, dupe_count, longest) := hj_loop (S fuel) i (u64 (i + bl)) h hp 0 0 in
        hi_loop fuel (u64 (i + (if dupe_count =? 0 then 1 else longest))) h hp
      else Ret (h, hp)
  end.
(** codedup.c 88, 115-155 *)
Definition hsearch (fuel : nat) : out (hmap * heap) :=
  if bl <? u64 (bl + 1) then hi_loop fuel 0 (hbmap_init vptr 1024) [] else Ret (hbmap_init vptr 1024, []).

(** ** The report *)
(** codedup.c 159-169; its: the iterators for which hbmap_foreach runs the body, which leaves the map alone *)
Fixpoint hcollect (its : list Z) (h : hmap) (hp : heap) (si_list : tgl (Z * Z)) : out (tgl (Z * Z)) :=
  match its with
  | [] => Ret si_list
  | it :: its =>
      let* p := hbmap_getval vptr h it in
      let* d := zread hp p in
      let* longest := longest_loop (Z.to_nat (tcnt d)) d 0 0 in
      let* x := tglist_get d 0 in
      if negb (longest =? fst x) then UB
      else
        let* k := hbmap_getkey h it in
        let* (_, si_list) := tglist_insert_sorted 8 (Some junk) sortitem_cmp si_list (longest, k) in
        hcollect its h hp si_list
  end.
(** codedup.c 170-188 *)
Fixpoint hprint_loop (n : nat) (h : hmap) (hp : heap) (start : Z) (si_list : tgl (Z * Z)) (i : Z) : out (list dup) :=
  match n with
  | O => Ret []
  | S n =>
      let* si := tglist_get si_list i in
      let* hi := hbmap_find intcmp bs inthash h (snd si) in
      let* p := hbmap_getval vptr h hi in
      let* d := zread hp p in
      let* cnt := cnt_loop (Z.to_nat (tcnt d)) d (fst si) 0 0 in
      let* o := others_loop (Z.to_nat cnt) d start 0 in
      let* t := text_loop L (Z.to_nat (fst si)) (snd si) in
      let* r := hprint_loop n h hp start si_list (i + 1) in
      Ret (mkDup (fst si) (start + snd si) cnt o t :: r)
  end.
(** codedup.c 156-188 *)
Definition hreport (fuel : nat) (start : Z) (h : hmap) (hp : heap) : out (list dup) :=
  let* (its, _) := hbmap_foreach fuel (fun h _ => Ret h) h in
  let* si_list := hcollect its h hp tglist_init in
  hprint_loop (Z.to_nat (tcnt si_list)) h hp start si_list 0.
End Search.

(** codedup.c 81-192 *)
Definition hcodedup (fuel : nat) (ws : bool) (bl start end_ : Z) (junk : Z -> Z * Z) (kj vj : Z -> Z) (bs : (Z -> Z) -> list Z -> option Z) (buf input : list Z) : out (list dup) :=
  let* L := read_loop fuel ws start end_ buf input 0 [] in
  let* (h, hp) := hsearch L bl junk kj vj bs fuel in
  hreport L junk bs fuel start h hp.
