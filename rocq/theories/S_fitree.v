(** Which names find_identical_files should print for two directory trees. *)
From Verif Require Import Base S_ex.

(** listings mark subdirectories by a slash at the end *)
Definition is_sub (f : list Z) : Prop := exists n, f = n ++ [47].
(** a name of a listing: no other slash *)
Definition name_ok (f : list Z) : Prop := exists n, n <> [] /\ ~ In 47 n /\ (f = n \/ f = n ++ [47]).
Section T.
Variables (names : list Z -> list (list Z)) (content : list Z -> list Z) (identical : Prop).
Inductive printed : list Z -> list Z -> list Z -> Prop :=
| PrFile d1 d2 f : In f (names d1) -> In f (names d2) -> ~ is_sub f ->
    (identical <-> content (in_dir d1 f) = content (in_dir d2 f)) -> printed d1 d2 (in_dir d1 f)
| PrSub d1 d2 f p : In f (names d1) -> In f (names d2) -> is_sub f ->
    printed (in_dir d1 f) (in_dir d2 f) p -> printed d1 d2 p.
End T.
