(** Specification of a duplicate finder.  Uses nothing of the model but its output record. *)
From Verif Require Import Base.

(** the n lines from a on are those from b on *)
Definition same (ls : list (list Z)) (n a b : Z) : Prop := forall k, 0 <= k < n -> znth [] ls (a + k) = znth [] ls (b + k).
(** a duplicate: n lines at a, again at b, the two disjoint, and not extensible downwards *)
Definition duplicate (ls : list (list Z)) (n a b : Z) : Prop :=
  0 <= a /\ a + n <= b /\ b + n <= zlen ls /\ same ls n a b /\
  (a + n = b \/ b + n = zlen ls \/ znth [] ls (a + n) <> znth [] ls (b + n)).
(** the first line of a block occurs again inside the block *)
Definition recurs (ls : list (list Z)) (n a : Z) : Prop := exists k, 0 < k < n /\ znth [] ls (a + k) = znth [] ls a.

(** ls without its first n elements and from the rest the first m *)
Definition slice {A} (n m : Z) (l : list A) : list A := firstn (Z.to_nat m) (skipn (Z.to_nat n) l).
Fixpoint unindent (s : list Z) : list Z :=
  match s with
  | [] => []
  | c :: r => if (9 <=? c) && (c <=? 13) || (c =? 32) then unindent r else s
  end.
(** n lines at a: at least bl lines, with duplicates at each of others, in ascending order *)
Definition good_block (ls : list (list Z)) (bl n a : Z) (others : list Z) (text : list (list Z)) : Prop :=
  bl <= n /\ others <> [] /\ Forall (duplicate ls n a) others /\ ForallOrdPairs Z.lt others /\ text = slice a n ls.
(** the lines a run works on: from index start on, up to two before line number end (counted from 1),
    all when end is (size_t) -1, without their indentation if wanted *)
Definition selected (ws : bool) (start end_ : Z) (fl : list (list Z)) : list (list Z) :=
  slice start (if end_ =? 2 ^ 64 - 1 then zlen fl else end_ - 1 - start) (map (fun l => if ws then unindent l else l) fl).
