(** Observation layer of find_identical_files on trees. *)
From Verif Require Import Base M_ex S_ex M_fitree S_fitree.

Definition both_slash (d1 d2 : list Z) : Prop := d1 <> [] /\ d2 <> [] /\ (is_sub d1 <-> is_sub d2).
(** two trees with at most n levels in common: all listings can be made, no name comes twice, and
    all common files can be opened and have the size they say *)
Fixpoint trees (ls : list Z -> Z * list (list Z)) (size : list Z -> Z) (opn : list Z -> option (list Z)) (n : nat) (d1 d2 : list Z) : Prop :=
  match n with
  | O => False
  | S n => fst (ls d1) = 0 /\ fst (ls d2) = 0 /\ NoDup (snd (ls d1)) /\ (forall f, In f (snd (ls d1)) -> name_ok f) /\
    forall f, In f (snd (ls d1)) -> In f (snd (ls d2)) ->
      (is_sub f -> trees ls size opn n (in_dir d1 f) (in_dir d2 f)) /\
      (~ is_sub f -> exists c1 c2, opn (in_dir d1 f) = Some c1 /\ opn (in_dir d2 f) = Some c2 /\ size (in_dir d1 f) = zlen c1 /\ size (in_dir d2 f) = zlen c2)
  end.
Definition file (opn : list Z -> option (list Z)) (p : list Z) : list Z := match opn p with Some c => c | None => [] end.
(** the pairs of directories visited below the first *)
Inductive below (ls : list Z -> Z * list (list Z)) : list Z -> list Z -> list Z -> list Z -> Prop :=
| BHere d1 d2 f : In f (snd (ls d1)) -> In f (snd (ls d2)) -> is_sub f -> below ls d1 d2 (in_dir d1 f) (in_dir d2 f)
| BDeep d1 d2 f e1 e2 : In f (snd (ls d1)) -> In f (snd (ls d2)) -> is_sub f -> below ls (in_dir d1 f) (in_dir d2 f) e1 e2 -> below ls d1 d2 e1 e2.
