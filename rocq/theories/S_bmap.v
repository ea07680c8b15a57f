(** Specification of a finite map with keys compared by a comparator, and of a C-conforming bsearch.
    Uses nothing of the model. *)
From Verif Require Import Base S_tglist.

Section M.
Context {K V : Type}.
Variable cmp : K -> K -> Z.

(** maps as functions that do not distinguish equal keys *)
Definition fmap := K -> option V.
Definition fempty : fmap := fun _ => None.
Definition fset (m : fmap) (k : K) (v : V) : fmap := fun k' => if cmp k k' =? 0 then Some v else m k'.
Definition fdel (m : fmap) (k : K) : fmap := fun k' => if cmp k k' =? 0 then None else m k'.

(** what callers do; positions (indices or iterators) are those handed out by the map *)
Inductive mop :=
| MInsert (k : K) (v : V) | MGet (k : K) | MContains (k : K) | MFind (k : K)
| MDelete (pos : Z) | MSetvalue (v : V) (pos : Z).
(** what they see; for an operation on a position the key at that position *)
Inductive mresp :=
| MRInsert (n : Z) | MRVal (v : option V) | MRBool (b : bool) | MRFound (kv : option (K * V)) | MRKey (k : K).

(** an insertion may only be lost when the allocator failed (ok = false) *)
Inductive mspec (ok : bool) : fmap -> mop -> mresp -> fmap -> Prop :=
| MsInsert m k v n : mspec ok m (MInsert k v) (MRInsert n) (fset m k v)
| MsInsertOom m k v n : ok = false -> mspec ok m (MInsert k v) (MRInsert n) m
| MsGet m k : mspec ok m (MGet k) (MRVal (m k)) m
| MsContains m k b : (b = true <-> m k <> None) -> mspec ok m (MContains k) (MRBool b) m
| MsFindNone m k : m k = None -> mspec ok m (MFind k) (MRFound None) m
| MsFindSome m k k' v : m k = Some v -> cmp k k' = 0 -> mspec ok m (MFind k) (MRFound (Some (k', v))) m
| MsDelete m k pos : m k <> None -> mspec ok m (MDelete pos) (MRKey k) (fdel m k)
| MsSetvalue m k v pos : m k <> None -> mspec ok m (MSetvalue v pos) (MRKey k) (fset m k v).
Inductive mspec_run : fmap -> list (bool * mop * mresp) -> fmap -> Prop :=
| MrNil m : mspec_run m [] m
| MrCons m b o r m' h m'' : mspec b m o r m' -> mspec_run m' h m'' -> mspec_run m ((b, o, r) :: h) m''.

(** C11 7.22.5.1: the array is ordered with respect to the key (f x: comparison of the key with x);
    bsearch returns a matching element or nothing if there is none *)
Definition ordered_for (f : K -> Z) (l : list K) : Prop :=
  forall p x q y r, l = p ++ x :: q ++ y :: r -> (f x <= 0 -> f y <= 0) /\ (f x < 0 -> f y < 0).
Definition bsearch_conforming (bs : (K -> Z) -> list K -> option Z) : Prop :=
  forall f l, ordered_for f l ->
    match bs f l with
    | Some i => exists p x q, l = p ++ x :: q /\ zlen p = i /\ f x = 0
    | None => Forall (fun x => f x <> 0) l
    end.
End M.
Arguments fmap K V : clear implicits.
Arguments mop K V : clear implicits.
Arguments mresp K V : clear implicits.
