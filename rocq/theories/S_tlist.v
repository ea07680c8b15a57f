(** Specification for tlist: a list of items (address, payload).  Uses nothing of the model. *)
From Verif Require Import Base.

Section S.
Context {A : Type}.
(** an insertion carries the allocator's answer *)
Inductive top :=
| TIns (al : option Z) (idx : Z) (v : A) | TApp (al : option Z) (v : A) | TDel (idx : Z)
| TSize | TGet (idx : Z) | TFree.
(** results: an int with the addresses given to free, or an item *)
Inductive tresp := TInt (n : Z) (freed : list Z) | TItem (a : Z) (v : A).

Inductive tspec : list (Z * A) -> top -> tresp -> list (Z * A) -> Prop :=
| TsIns p q a v : tspec (p ++ q) (TIns (Some a) (zlen p) v) (TInt 1 []) (p ++ (a, v) :: q)
| TsInsOom l idx v : tspec l (TIns None idx v) (TInt 0 []) l
| TsInsBad l al idx v : zlen l < idx -> tspec l (TIns al idx v) (TInt 0 []) l
| TsApp l a v : tspec l (TApp (Some a) v) (TInt 1 []) (l ++ [(a, v)])
| TsAppOom l v : tspec l (TApp None v) (TInt 0 []) l
| TsDel p q a v : tspec (p ++ (a, v) :: q) (TDel (zlen p)) (TInt 1 [a]) (p ++ q)
| TsDelBad l idx : zlen l <= idx -> tspec l (TDel idx) (TInt 0 []) l
| TsSize l : tspec l TSize (TInt (zlen l) []) l
| TsGet p q a v : tspec (p ++ (a, v) :: q) (TGet (zlen p)) (TItem a v) (p ++ (a, v) :: q)
| TsFree l : tspec l TFree (TInt 0 (map fst l)) [].
Inductive tspec_run : list (Z * A) -> list (top * tresp) -> list (Z * A) -> Prop :=
| TrNil l : tspec_run l [] l
| TrCons l o r l' h l'' : tspec l o r l' -> tspec_run l' h l'' -> tspec_run l ((o, r) :: h) l''.

(** what the caller may do with a list of n items: indices are size_t, tlist_get stays in
    range, and there are never more than 2^32 - 1 items *)
Definition tvalid (n : Z) (o : top) : Prop :=
  match o with
  | TIns _ idx _ => 0 <= idx < 2 ^ 64 /\ n < 2 ^ 32 - 1
  | TApp _ _ => n < 2 ^ 32 - 1
  | TDel idx => 0 <= idx < 2 ^ 64
  | TGet idx => 0 <= idx < n
  | TSize | TFree => True
  end.
End S.
Arguments top A : clear implicits.
Arguments tresp A : clear implicits.
