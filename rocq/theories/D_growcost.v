(** Observation layer: the reallocations along a history.  One entry per call that changed
    the capacity, namely the number of item slots the old block had - what realloc may have
    to copy. *)
From Verif Require Import Base M_sblist S_sblist D_sblist M_tglist S_tglist D_tglist.

Fixpoint tgrown {A} (isz : Z) (l : tgl A) (h : list (talloc A * lop A)) : out (list Z * tgl A) :=
  match h with
  | [] => Ret ([], l)
  | (al, o) :: h =>
    let* (_, l') := texec isz al l o in
    let* (c, l2) := tgrown isz l' h in
    Ret (if tcapa l' =? tcapa l then c else tcapa l :: c, l2)
  end.
Fixpoint sgrown (l : sbl) (h : list (alloc * op)) : out (list Z * sbl) :=
  match h with
  | [] => Ret ([], l)
  | (al, o) :: h =>
    let* (_, l') := exec al l o in
    let* (c, l2) := sgrown l' h in
    Ret (if capa l' =? capa l then c else capa l :: c, l2)
  end.
(** calls that add an item *)
Definition tadds {A} (h : list (talloc A * lop A)) : Z :=
  zlen (filter (fun x => match snd x with LAdd _ | LIns _ _ => true | _ => false end) h).
Definition sadds (h : list (alloc * op)) : Z :=
  zlen (filter (fun x => match snd x with Add _ | Addi _ | Insert _ _ => true | _ => false end) h).
Definition total (c : list Z) : Z := fold_right Z.add 0 c.
