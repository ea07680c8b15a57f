(** The entries of a bmap as a list of pairs and what each operation does to it. *)
From Verif Require Import Base M_heap M_own M_ownmap D_ownmap.

(** the values in the order of the keys *)
Definition values (b : hbm) : list Z := match bvals b with VTg l => tits l | VTgi i l => map (znth 0 (tits l)) (tits i) end.
Definition shows (b : hbm) (l : list (Z * Z)) : Prop := stored_keys b = map fst l /\ values b = map snd l.
(** one operation; an insertion that finds no memory changes nothing *)
Inductive vstep : list (Z * Z) -> bop -> list (Z * Z) -> Prop :=
| V_ins a b k v : vstep (a ++ b) (BNocheck (zlen a) k v) (a ++ (k, v) :: b)
| V_nomem l pos k v : vstep l (BNocheck pos k v) l
| V_new a b k v : vstep (a ++ b) (BInsert None (zlen a) k v) (a ++ (k, v) :: b)
| V_new_nomem l pos k v : vstep l (BInsert None pos k v) l
| V_found a k0 v0 b pos k v : vstep (a ++ (k0, v0) :: b) (BInsert (Some (zlen a)) pos k v) (a ++ (k0, v) :: b)
| V_set a k0 v0 b v : vstep (a ++ (k0, v0) :: b) (BSet (zlen a) v) (a ++ (k0, v) :: b)
| V_del a k0 v0 b : vstep (a ++ (k0, v0) :: b) (BDelete (zlen a)) (a ++ b).
Inductive vsteps : list (Z * Z) -> list bop -> list (Z * Z) -> Prop :=
| Vs_nil l : vsteps l [] l
| Vs_cons l o l1 ops l2 : vstep l o l1 -> vsteps l1 ops l2 -> vsteps l (o :: ops) l2.
(** the positions are inside a map with n entries *)
Definition in_map (n : Z) (o : bop) : Prop :=
  match o with
  | BNocheck pos _ _ => 0 <= pos <= n
  | BInsert None pos _ _ => 0 <= pos <= n
  | BInsert (Some i) _ _ _ => 0 <= i < n
  | BDelete pos | BSet pos _ => 0 <= pos < n
  end.
