(** What the functions of <stdio.h> write (C11 7.21.7.9, 7.21.10.4). *)
From Verif Require Import Base.

(** puts(s): the string and a new-line *)
Definition puts_text (t : list Z) : list Z := t ++ [10].
(** perror(s): if s is not a null pointer and does not point to an empty string: s, a colon and a space; then the
    error message and a new-line *)
Definition perror_text (s : option (list Z)) (msg : list Z) : list Z :=
  (match s with Some (c :: t) => (c :: t) ++ [58; 32] | _ => [] end) ++ msg ++ [10].
(** a compiler's choice of addresses for string literals: only equal ones may share *)
Definition literals_ok (same : list Z -> list Z -> bool) : Prop := forall a b, same a b = true -> a = b.
Definition literals_merged (same : list Z -> list Z -> bool) : Prop := forall a b, same a b = true <-> a = b.
(** the names of the two streams: stdout, stderr *)
Definition out_name : list Z := [115; 116; 100; 111; 117; 116].
Definition err_name : list Z := [115; 116; 100; 101; 114; 114].
