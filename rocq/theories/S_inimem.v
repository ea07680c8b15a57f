(** Spec for C123: a value in a list of lines. *)
From Verif Require Import Base S_ini S_iniuse S_ininext.

(** the first value of the key in the first section of the name *)
Definition look (name key : list Z) (ls : list (list Z)) : option (list Z) :=
  match sections name 0 ls with [] => None | s :: _ => first_value key (lines_of ls s) end.
