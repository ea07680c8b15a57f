(** Observation layer of tlist. *)
From Verif Require Import Base M_tlist S_tlist.

Section D.
Context {A : Type}.
(** a returned pointer p is the item at p - sizeof(struct item) *)
Definition titem (r : Z * option A) : out (tresp A) :=
  match r with (p, Some v) => Ret (TItem (p - 24) v) | (_, None) => UB end.
Definition texec (t : tlist A) (o : top A) : out (tresp A * tlist A) :=
  match o with
  | TIns al idx v => let '(r, t) := tlist_insert al t idx v in Ret (TInt r [], t)
  | TApp al v => let '(r, t) := tlist_append al t v in Ret (TInt r [], t)
  | TDel idx => let* (r, fr, t) := tlist_delete t idx in Ret (TInt r fr, t)
  | TSize => Ret (TInt (tlist_getsize t) [], t)
  | TGet idx => let* r := titem (tlist_get t idx) in Ret (r, t)
  | TFree => let* (fr, t) := tlist_free_items t in Ret (TInt 0 fr, t)
  end.
Fixpoint trun (t : tlist A) (h : list (top A)) : out (list (top A * tresp A) * tlist A) :=
  match h with
  | [] => Ret ([], t)
  | o :: h =>
    let* (r, t) := texec t o in
    let* (rs, t) := trun t h in
    Ret ((o, r) :: rs, t)
  end.
Fixpoint tcaller_ok (t : tlist A) (h : list (top A)) : Prop :=
  match h with
  | [] => True
  | o :: h => tvalid (tlist_getsize t) o /\ match texec t o with Ret (_, t) => tcaller_ok t h | _ => True end
  end.
(** a list as a client sees it *)
Definition treads (t : tlist A) (xs : list (Z * A)) : Prop :=
  tlist_getsize t = zlen xs /\
  forall i d, 0 <= i < zlen xs -> tlist_get t i = (fst (znth d xs i) + 24, Some (snd (znth d xs i))).

(** the shape invariants, read off the tree alone *)
Fixpoint nodes (t : tree A) : Z := match t with Leaf => 0 | Node _ _ _ _ l r => nodes l + 1 + nodes r end.
Fixpoint counts_exact (t : tree A) : Prop :=
  match t with Leaf => True | Node _ _ c _ l r => c = nodes t /\ counts_exact l /\ counts_exact r end.
Definition prior_le (b : Z) (t : tree A) : Prop := match t with Leaf => True | Node _ p _ _ _ _ => p <= b end.
Fixpoint heap_ordered (t : tree A) : Prop :=
  match t with Leaf => True | Node _ p _ _ l r => prior_le p l /\ prior_le p r /\ heap_ordered l /\ heap_ordered r end.
End D.
