(** Observation layer: a tglist filled by tglist_insert_sorted. *)
From Verif Require Import Base M_tglist S_tglist D_tglist.

Fixpoint tsorts {A} (isz : Z) (cmp : A -> A -> Z) (l : tgl A) (h : list (talloc A * A)) : out (list Z * tgl A) :=
  match h with
  | [] => Ret ([], l)
  | (al, x) :: h =>
    let* (r, l) := tglist_insert_sorted isz al cmp l x in
    let* (rs, l) := tsorts isz cmp l h in
    Ret (r :: rs, l)
  end.
(** every item is not greater than each later one *)
Inductive tsorted {A} (cmp : A -> A -> Z) : list A -> Prop :=
  | tsorted_nil : tsorted cmp []
  | tsorted_cons x l : Forall (fun y => cmp x y <= 0) l -> tsorted cmp l -> tsorted cmp (x :: l).
(** lists reached from the empty one by a history of calls, with their contents *)
Definition treached {A} (isz : Z) (h : list (talloc A * lop A)) (l : tgl A) (xs : list A) : Prop :=
  1 <= isz /\ (2 * zlen h + 4) * isz < 2 ^ 64 /\ tcaller_ok isz tglist_init h /\
  exists rs, trun isz tglist_init h = Ret (rs, l) /\ lspec_run [] rs xs /\ treads l xs.
