(** Specification for the example programs. *)
From Verif Require Import Base.

(** the maximal runs of places where two strings of the same length differ, as (offset, length); the
    strings begin at offset o *)
Inductive diff_runs : Z -> list Z -> list Z -> list (Z * Z) -> Prop :=
  | runs_nil o : diff_runs o [] [] []
  | runs_eq o x a b r : diff_runs (o + 1) a b r -> diff_runs o (x :: a) (x :: b) r
  | runs_ne o u v a b r : u <> [] -> Forall2 (fun x y => x <> y) u v ->
      a = [] /\ b = [] \/ (exists x a' b', a = x :: a' /\ b = x :: b') ->
      diff_runs (o + zlen u) a b r -> diff_runs o (u ++ a) (v ++ b) ((o, zlen u) :: r).
(** a name in a directory *)
Definition in_dir (dir f : list Z) : list Z := if znth 0 dir (zlen dir - 1) =? 47 then dir ++ f else dir ++ 47 :: f.
