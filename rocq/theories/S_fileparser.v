(** Specification for fileparser: what the lines of a file are. *)
From Verif Require Import Base.

Definition no_lf (l : list Z) : Prop := ~ In 10 l.
(** LF-terminated lines; a last line without LF counts if it is not empty *)
Inductive file_lines : list Z -> list (list Z) -> Prop :=
| FLnil : file_lines [] []
| FLlast l : l <> [] -> no_lf l -> file_lines l [l]
| FLline l r ls : no_lf l -> file_lines r ls -> file_lines (l ++ 10 :: r) (l :: ls).
(** the next line of the rest of a file, and whether it ends with LF *)
Definition next_line (r l : list Z) (lf : bool) : Prop :=
  no_lf l /\ if lf then exists r', r = l ++ 10 :: r' else r = l /\ l <> [].
