(** Specification of what stays in a list when additions fail (C70).  add k: the k-th addition succeeds. *)
From Verif Require Import Base.

(** of the entries ts, added from the k-th addition on, those whose addition succeeds *)
Fixpoint kept (add : Z -> bool) (k : Z) (ts : list (list Z)) : list (list Z) :=
  match ts with [] => [] | t :: ts => (if add k then [t] else []) ++ kept add (k + 1) ts end.
(** all of them succeed *)
Fixpoint all_added (add : Z -> bool) (k : Z) (ts : list (list Z)) : bool :=
  match ts with [] => true | _ :: ts => add k && all_added add (k + 1) ts end.
