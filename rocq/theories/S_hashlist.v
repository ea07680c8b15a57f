(** Specification for hashlist: the additions (hash, value) in order. *)
From Verif Require Import Base.

(** values added with a hash congruent to [hash] *)
Definition bucket_vals (nb hash : Z) (adds : list (Z * list Z)) : list (list Z) :=
  map snd (filter (fun p => fst p mod nb =? hash mod nb) adds).
(** all values, bucket by bucket *)
Definition all_vals (nb : Z) (adds : list (Z * list Z)) : list (list Z) :=
  flat_map (fun b => bucket_vals nb (Z.of_nat b) adds) (seq 0 (Z.to_nat nb)).
