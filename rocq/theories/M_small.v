(** Model of src/filelib/getfilemodtime.c, include/macros.h 4-10 and
    examples/stringptr_test1.c. *)
From Verif Require Import Base M_stringptr M_spfile.

(** getfilemodtime.c 4-9; [st]: what stat(2) says, None = it fails, Some = st_mtime *)
Definition getFileModTime (st : option Z) : Z := match st with Some m => m | None => 0 end.

(** an int expression with side effects on a state: its value and the state after it *)
Definition expr (S : Type) := S -> Z * S.
(** macros.h 5: MIN, 9: MAX.  The condition evaluates both arguments (in C in either order;
    here the left one first), the selected one is evaluated again *)
Definition MIN {S} (x y : expr S) : expr S := fun s =>
  let '(a, s) := x s in let '(b, s) := y s in if a <? b then x s else y s.
Definition MAX {S} (x y : expr S) : expr S := fun s =>
  let '(a, s) := x s in let '(b, s) := y s in if b <? a then x s else y s.

(** examples/stringptr_test1.c 3-10: exit code and what is in test.txt; "test" with its NUL *)
Definition test1_main (opened : bool) (ws : list io) : out (Z * list Z) :=
  let* (_, f) := stringptr_tofile opened ws (mkSp [116; 101; 115; 116; 0] 0 4) in Ret (0, f).
