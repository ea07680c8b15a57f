(** Specification of a list kept in two levels: the places of its items, in the order of the
    list, and the store, in the order in which the items were added.  Uses nothing of the model. *)
From Verif Require Import Base S_tglist.

Section S.
Context {A : Type}.
(** [sspec ok (ks, vs) o r (ks', vs')]: an addition takes the next place of the store, a failed
    one (only without memory) takes none; deleting leaves the store alone *)
Inductive sspec (ok : bool) : list Z * list A -> lop A -> lresp A -> list Z * list A -> Prop :=
| SsAdd ks vs x : sspec ok (ks, vs) (LAdd x) (LInt 1) (ks ++ [zlen vs], vs ++ [x])
| SsAddOom s x : ok = false -> sspec ok s (LAdd x) (LInt 0) s
| SsIns p q vs x : sspec ok (p ++ q, vs) (LIns x (zlen p)) (LInt 1) (p ++ zlen vs :: q, vs ++ [x])
| SsInsOom s x pos : ok = false -> sspec ok s (LIns x pos) (LInt 0) s
| SsSet p q a z b x : sspec ok (p ++ zlen a :: q, a ++ z :: b) (LSet x (zlen p)) (LInt 1) (p ++ zlen a :: q, a ++ x :: b)
| SsDel p k q vs : sspec ok (p ++ k :: q, vs) (LDel (zlen p)) (LInt 1) (p ++ q, vs)
| SsGet p q a y b : sspec ok (p ++ zlen a :: q, a ++ y :: b) (LGet (zlen p)) (LItem y) (p ++ zlen a :: q, a ++ y :: b).
Inductive sspec_run : list Z * list A -> list (bool * lop A * lresp A) -> list Z * list A -> Prop :=
| SsNil s : sspec_run s [] s
| SsCons s b o r s' h s'' : sspec b s o r s' -> sspec_run s' h s'' -> sspec_run s ((b, o, r) :: h) s''.
(** the additions that succeeded, in order *)
Definition added (h : list (bool * lop A * lresp A)) : Z :=
  zlen (filter (fun e => match e with (_, LAdd _, LInt n) | (_, LIns _ _, LInt n) => n =? 1 | _ => false end) h).
End S.
