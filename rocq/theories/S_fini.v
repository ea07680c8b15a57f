(** Specification of destroying a map: which entries there are.  Uses nothing of the model. *)
From Verif Require Import Base S_bmap.

(** kv lists the entries of m, each once *)
Definition enumerates {K V} (cmp : K -> K -> Z) (m : fmap K V) (kv : list (K * V)) : Prop :=
  Forall (fun p => m (fst p) = Some (snd p)) kv /\
  ForallOrdPairs (fun p q => cmp (fst p) (fst q) <> 0) kv /\
  (forall k, m k <> None -> Exists (fun p => cmp k (fst p) = 0) kv).
(** the wanted bits of the flags: 1 the keys, 2 the values *)
Definition wants_keys (f : Z) : bool := Z.testbit f 0.
Definition wants_vals (f : Z) : bool := Z.testbit f 1.
(** sel b l: l if b *)
Definition sel {A} (b : bool) (l : list A) : list A := if b then l else [].
