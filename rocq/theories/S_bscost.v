(** Searching a sorted array by comparisons alone: a strategy is a decision tree whose nodes
    compare the wanted key with the item at a position.  Uses nothing of the model. *)
From Verif Require Import Base.

Inductive strategy :=
| Done (r : Z)                              (* answer: a position, or -1 for absent *)
| Look (i : Z) (less equal more : strategy). (* compare the key with item i *)

(** [f i] is the comparator's answer for the key and the item at i *)
Fixpoint answer (t : strategy) (f : Z -> Z) : Z :=
  match t with
  | Done r => r
  | Look i a b c => if f i <? 0 then answer a f else if 0 <? f i then answer c f else answer b f
  end.
Fixpoint asked (t : strategy) (f : Z -> Z) : Z :=
  match t with
  | Done _ => 0
  | Look i a b c => 1 + (if f i <? 0 then asked a f else if 0 <? f i then asked c f else asked b f)
  end.

(** the answers for n distinct items in ascending order, the key being item p ... *)
Definition key_at (p : Z) : Z -> Z := fun i => p - i.
(** ... or none of them, p of them being smaller *)
Definition key_before (p : Z) : Z -> Z := fun i => 2 * (p - i) - 1.

(** the strategy finds every item of an array of n and reports every absent key *)
Definition correct (n : Z) (t : strategy) : Prop :=
  (forall p, 0 <= p < n -> answer t (key_at p) = p) /\
  (forall p, 0 <= p <= n -> answer t (key_before p) = -1).
