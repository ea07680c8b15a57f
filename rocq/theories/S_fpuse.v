(** Specification: printing a file line by line.  Uses nothing of the model. *)
From Verif Require Import Base S_fileparser.

(** what puts shows of a line *)
Fixpoint before0 (l : list Z) : list Z := match l with [] => [] | c :: l => if c =? 0 then [] else c :: before0 l end.
Definition printed (ls : list (list Z)) : list Z := flat_map (fun l => before0 l ++ [10]) ls.
