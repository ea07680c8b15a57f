(** Specification of an indexed list of values of any type.  Uses nothing of the model. *)
From Verif Require Import Base.

Section L.
Context {A : Type}.
Inductive lop :=
| LAdd (x : A) | LIns (x : A) (pos : Z) | LSet (x : A) (pos : Z) | LDel (pos : Z) | LGet (pos : Z).
Inductive lresp := LInt (n : Z) | LItem (x : A).

(** [lspec ok l o r l']: on l, operation o may answer r leaving l'; failing is only
    allowed when the allocator failed (ok = false) *)
Inductive lspec (ok : bool) : list A -> lop -> lresp -> list A -> Prop :=
| LsAdd l x : lspec ok l (LAdd x) (LInt 1) (l ++ [x])
| LsAddOom l x : ok = false -> lspec ok l (LAdd x) (LInt 0) l
| LsIns p q x : lspec ok (p ++ q) (LIns x (zlen p)) (LInt 1) (p ++ x :: q)
| LsInsOom l x pos : ok = false -> lspec ok l (LIns x pos) (LInt 0) l
| LsSet p y q x : lspec ok (p ++ y :: q) (LSet x (zlen p)) (LInt 1) (p ++ x :: q)
| LsDel p y q : lspec ok (p ++ y :: q) (LDel (zlen p)) (LInt 1) (p ++ q)
| LsGet p y q : lspec ok (p ++ y :: q) (LGet (zlen p)) (LItem y) (p ++ y :: q).
Inductive lspec_run : list A -> list (bool * lop * lresp) -> list A -> Prop :=
| LrNil l : lspec_run l [] l
| LrCons l b o r l' h l'' : lspec b l o r l' -> lspec_run l' h l'' -> lspec_run l ((b, o, r) :: h) l''.

(** the same, with the items deleted on the way *)
Definition lgone (l : list A) (o : lop) : list A := match o with LDel pos => ztake 1 (zdrop pos l) | _ => [] end.
Inductive lspec_log : list A -> list (bool * lop * lresp) -> list A -> list A -> Prop :=
| LgNil l : lspec_log l [] l []
| LgCons l b o r l' h l'' gone : lspec b l o r l' -> lspec_log l' h l'' gone -> lspec_log l ((b, o, r) :: h) l'' (lgone l o ++ gone).

(** valid positions for a list of length n *)
Definition lvalid (n : Z) (o : lop) : Prop :=
  match o with
  | LAdd _ => True
  | LIns _ pos => 0 <= pos <= n
  | LSet _ pos | LDel pos | LGet pos => 0 <= pos < n
  end.
End L.
Arguments lop A : clear implicits.
Arguments lresp A : clear implicits.

(** comparators on A *)
Definition total_order {A} (cmp : A -> A -> Z) : Prop :=
  (forall x y, cmp x y < 0 <-> 0 < cmp y x) /\ (forall x y z, cmp x y <= 0 -> cmp y z <= 0 -> cmp x z <= 0).
