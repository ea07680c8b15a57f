(** What the caller of fileparser_readline_userbuf is to see: result and bytes with the terminator. *)
From Verif Require Import Base.

(** a line *)
Definition got (l : list Z) : Z * list Z := (0, l ++ [0]).
(** the end of the file *)
Definition eof : Z * list Z := (-2, []).
