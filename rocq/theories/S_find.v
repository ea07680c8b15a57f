(** Specification: what find(1) lists.  Uses nothing of the model. *)
From Verif Require Import Base.

(** a file system: the entries of a directory, whose path ends with a slash; a name and whether it is a
    directory.  The special entries . and .. are left out *)
Definition files : Type := list Z -> option (list (list Z * bool)).
Section Walk.
Variable fs : files.
(** a directory, then everything below it, in the order of the entries *)
Inductive walk : list Z -> list (list Z) -> Prop :=
  | walk_dir p es ls : fs p = Some es -> walk_entries p es ls -> walk p (p :: ls)
with walk_entries : list Z -> list (list Z * bool) -> list (list Z) -> Prop :=
  | walk_nil p : walk_entries p [] []
  | walk_file p n es ls : walk_entries p es ls -> walk_entries p ((n, false) :: es) ((p ++ n) :: ls)
  | walk_sub p n es l1 l2 : walk (p ++ n ++ [47]) l1 -> walk_entries p es l2 -> walk_entries p ((n, true) :: es) (l1 ++ l2).
End Walk.
(** one path per line *)
Definition output (ls : list (list Z)) : list Z := flat_map (fun l => l ++ [10]) ls.
(** the directory meant by an argument *)
Definition as_dir (a : list Z) : list Z := a ++ (if last a 0 =? 47 then [] else [47]).
