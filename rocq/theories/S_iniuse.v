(** Specification: what an ini file says.  Uses nothing of the model. *)
From Verif Require Import Base.

Definition eqs (a b : list Z) : bool := if list_eq_dec Z.eq_dec a b then true else false.
(** sections with their names, each a list of keys and values *)
Definition ini_data : Type := list (list Z * list (list Z * list Z)).
(** [name], LF, then key=value, LF for each entry *)
Definition entry_text (e : list Z * list Z) : list Z := fst e ++ [61] ++ snd e.
Definition section_lines (s : list Z * list (list Z * list Z)) : list (list Z) := ([91] ++ fst s ++ [93]) :: map entry_text (snd s).
Definition ini_lines (f : ini_data) : list (list Z) := flat_map section_lines f.
Definition ini_text (f : ini_data) : list Z := flat_map (fun l => l ++ [10]) (ini_lines f).
(** no line feeds; no closing bracket in a name; no = in a key, and it does not begin like a header *)
Definition name_ok (n : list Z) : Prop := ~ In 93 n.
Definition key_ok (k : list Z) : Prop := ~ In 61 k /\ hd 0 k <> 91.
Definition ini_ok (f : ini_data) : Prop :=
  Forall (fun s => name_ok (fst s) /\ Forall (fun e => key_ok (fst e)) (snd s)) f /\ Forall (fun l => ~ In 10 l) (ini_lines f).
(** the first entry with that key in the first section with that name *)
Definition ini_value (f : ini_data) (name key : list Z) : option (list Z) :=
  match find (fun s => eqs (fst s) name) f with
  | None => None
  | Some s => option_map snd (find (fun e => eqs (fst e) key) (snd s))
  end.
