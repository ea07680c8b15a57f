(** Specification for filelib: what a path means. *)
From Verif Require Import Base S_stringptr.

(** components between slashes *)
Fixpoint comps (t : list Z) : list (list Z) :=
  match t with
  | [] => [[]]
  | c :: t => if c =? 47 then [] :: comps t
              else match comps t with [] => [[c]] | x :: l => (c :: x) :: l end
  end.
Definition is (a b : list Z) : bool := if list_eq_dec Z.eq_dec a b then true else false.
(** st: the components so far, last first; None: above the root *)
Fixpoint resolve (st : list (list Z)) (cs : list (list Z)) : option (list (list Z)) :=
  match cs with
  | [] => Some st
  | c :: cs =>
      if is c [] || is c [46] then resolve st cs
      else if is c [46; 46] then match st with [] => None | _ :: st => resolve st cs end
      else resolve (c :: st) cs
  end.
Definition normal (t : list Z) : option (list Z) :=
  match t with
  | c :: r => if c =? 47 then option_map (fun st => 47 :: join [47] (rev st)) (resolve [] (comps r)) else None
  | [] => None
  end.
