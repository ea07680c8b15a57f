(** Observation of successive fileparser_readline_userbuf calls. *)
From Verif Require Import Base M_fileparser.

(** what the caller sees of one call: the result and, on success, the bytes up to and
    including the terminator *)
Inductive seen := Line (l : list Z) | Code (c : Z).
(** k calls with the same buffer *)
Fixpoint calls (k : nat) (p : fp) (buf : list Z) (n : Z) : out (list seen * list Z) :=
  match k with
  | O => Ret ([], buf)
  | S k =>
      let* (r, p, buf) := readline_userbuf None None p buf n in
      let* o := (if r =? 0 then let* l := zreads buf 0 (flen p + 1) in Ret (Line l) else Ret (Code r)) in
      let* (os, buf) := calls k p buf n in Ret (o :: os, buf)
  end.
