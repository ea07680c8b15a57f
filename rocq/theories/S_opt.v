(** Specification: command line options. *)
From Verif Require Import Base.

(** -f, or --f if f is longer than one character *)
Definition option_word (f s : list Z) : Prop := s = 45 :: f \/ 1 < zlen f /\ s = 45 :: 45 :: f.
(** -f=v, or --f=v *)
Definition option_value (f s v : list Z) : Prop := s = 45 :: f ++ 61 :: v \/ 1 < zlen f /\ s = 45 :: 45 :: f ++ 61 :: v.
(** argument i of args (the program's name is argument 0) gives option f the value v *)
Definition gives (args : list (list Z)) (f : list Z) (i : Z) (v : list Z) : Prop :=
  1 <= i < zlen args /\
  (option_value f (znth [] args i) v \/ option_word f (znth [] args i) /\ i + 1 < zlen args /\ v = znth [] args (i + 1)).
