(** Model of the destruction macros of include/tglist.h, include/tgilist.h, include/bmap.h
    and include/hbmap.h.

    - free is recorded: the results list the pointers passed to free, in order.  An item of a
      list of pointers stands for the pointer stored in it.
    - The item size is an argument; the lists are those of M_tglist and M_bmap. *)
From Verif Require Import Base M_tglist M_bmap.

(** include/tglist.h 90-93, the while loop: count goes down, items[count] is freed *)
Fixpoint free_loop {A} (fuel : nat) (l : tgl A) : out (list A * tgl A) :=
  if 0 <? tcnt l then
    match fuel with
    | O => Fuel
    | S fuel =>
      let l := mkTg (tcnt l - 1) (tcapa l) (tmem l) in
      let* x := tglist_get l (tcnt l) in
      let* (fs, l) := free_loop fuel l in
      Ret (x :: fs, l)
    end
  else Ret ([], l).
(** include/tglist.h 90-93: a pointer has 8 bytes *)
Definition tglist_free_values {A} (isz : Z) (l : tgl A) : out (list A * tgl A) :=
  if isz =? 8 then free_loop (Z.to_nat (tcnt l)) l else Ret ([], l).
(** include/tgilist.h 55 *)
Definition tgilist_free_values {A} (isz : Z) (x : tgi A) : out (list A * tgi A) :=
  let* (fs, v) := tglist_free_values isz (gval x) in Ret (fs, mkTgi (gidx x) v).

(** what is passed to free when a map goes: a stored key, a stored value, an array of the map
    (include/tglist.h 82, include/tgilist.h 50-53) *)
Inductive arr := AKeys | AValues | AIndex.
Inductive fev {K V : Type} := FreeKey (k : K) | FreeVal (v : V) | FreeArr (a : arr).
Arguments fev K V : clear implicits.

(** the two destructors of the value list: _free_values with the pointers it frees, and the arrays
    of _free_items *)
Record vfree (V St : Type) := mkVfree { f_values : St -> out (list V * St); f_arrays : list arr }.
Arguments f_values {V St}.
Arguments f_arrays {V St}.
(** include/bmap.h 53-54 *)
Definition vfree_tglist (V : Type) (isz : Z) : vfree V (tgl V) := mkVfree _ _ (tglist_free_values isz) [AValues].
(** include/bmap.h 48-51 *)
Definition vfree_tgilist (V : Type) (isz : Z) : vfree V (tgi V) := mkVfree _ _ (tgilist_free_values isz) [AIndex; AValues].

Section F.
Context {K V St : Type}.
Variable vf : vfree V St.
Variable ksz : Z.

(** FREEFLAGS & bit of include/bmap.h 97-98: the macro argument is not in parentheses, so for an
    argument a | b | ... | z this is a | b | ... | (z & bit); the argument is given as the list of its
    operands *)
Fixpoint flag (fl : list Z) (bit : Z) : Z :=
  match fl with [] => 0 | [z] => Z.land z bit | a :: fl => Z.lor a (flag fl bit) end.

(** include/bmap.h 96-101 *)
Definition bmap_fini (fl : list Z) (b : bmap K St) : out (list (fev K V)) :=
  let* (fk, _) := (if negb (flag fl 1 =? 0) then tglist_free_values ksz (bkeys b) else Ret ([], bkeys b)) in
  let* (fv, _) := (if negb (flag fl 2 =? 0) then f_values vf (bvals b) else Ret ([], bvals b)) in
  Ret (map FreeKey fk ++ map FreeVal fv ++ FreeArr AKeys :: map FreeArr (f_arrays vf)).
(** include/hbmap.h 80-83 *)
Fixpoint hbmap_fini (fl : list Z) (h : list (bmap K St)) : out (list (fev K V)) :=
  match h with
  | [] => Ret []
  | b :: h => let* e := bmap_fini fl b in let* es := hbmap_fini fl h in Ret (e ++ es)
  end.
End F.
