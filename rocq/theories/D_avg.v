(** Observation layer for lists built by insertions only. *)
From Verif Require Import Base M_tlist S_tlist D_tlist M_tlcost S_avg.

(** insert items, (address, payload) each, at the places w *)
Definition insertions {A} (items : list (Z * A)) (w : list Z) : list (top A) := map (fun '((a, v), i) => TIns (Some a) i v) (combine items w).
(** reading item i of the list built this way visits c nodes *)
Definition built_cost {A} (seed : Z) (items : list (Z * A)) (i : Z) (w : list Z) (c : Z) : Prop :=
  exists rs t, trun (mkTl seed Leaf) (insertions items w) = Ret (rs, t) /\ tlist_getsize t = zlen items /\ snd (tlist_get_cost t i) = c.
