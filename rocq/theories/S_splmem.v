(** Spec for C119: which pieces are stored.  The list gets room for 16 pieces at a time; every piece that finds it full
    asks for more room, and is lost where there is none. *)
From Verif Require Import Base.

(** kept sc xs ys: a list that is full is offered xs and stores ys; sc: the answers to its requests (none left: yes) *)
Inductive kept {A} : list bool -> list A -> list A -> Prop :=
  | KNone sc : kept sc [] []
  | KLost sc x xs ys : kept sc xs ys -> kept (false :: sc) (x :: xs) ys
  | KLast sc b : 0 < zlen b <= 16 -> kept (true :: sc) b b
  | KBlock sc b xs ys : zlen b = 16 -> kept sc xs ys -> kept (true :: sc) (b ++ xs) (b ++ ys)
  | KAll xs : kept [] xs xs.
(** ys is xs with some elements left out *)
Inductive part {A} : list A -> list A -> Prop :=
  | PNil : part [] []
  | PSkip x xs ys : part xs ys -> part (x :: xs) ys
  | PTake x xs ys : part xs ys -> part (x :: xs) (x :: ys).
