(** Specification of a search that does not back up.  Uses nothing of the model. *)
From Verif Require Import Base S_str.

Section Scan.
Variables (R : Z -> Z -> Prop) (nd : list Z).
(** comparing w with the needle fails exactly at w's last byte *)
Definition miss (w : list Z) : Prop :=
  exists m x a n b, nd = a ++ n :: b /\ w = m ++ [x] /\ Forall2 R m a /\ ~ R x n.
(** the search: a match, the text ending within the needle, or a failed comparison, after
    which it goes on behind the byte that did not match *)
Inductive scan : list Z -> option Z -> Prop :=
| scan_hit m q : Forall2 R m nd -> scan (m ++ q) (Some 0)
| scan_end m a n b : nd = a ++ n :: b -> Forall2 R m a -> scan m None
| scan_miss w t r : miss w -> scan t r -> scan (w ++ t) (option_map (Z.add (zlen w)) r).
End Scan.
(** one byte repeated *)
Definition repeated (l : list Z) : Prop := exists c, Forall (eq c) l.
(** one byte repeated, then stars only *)
Definition repeated_stars (l : list Z) : Prop := exists c a b, l = a ++ b /\ Forall (eq c) a /\ Forall (eq 42) b.
(** findword: repeated scans, each starting one byte behind the occurrence that was rejected;
    what comes before that byte is forgotten *)
Inductive words (nd : list Z) : list Z -> option Z -> Prop :=
| words_none t : scan uc_match nd t None -> words nd t None
| words_hit t k : scan uc_match nd t (Some k) -> starts_word t k -> ends_word t (k + zlen nd) -> words nd t (Some k)
| words_more p t k r : scan uc_match nd (p ++ t) (Some k) -> ~ (starts_word (p ++ t) k /\ ends_word (p ++ t) (k + zlen nd)) -> zlen p = k + 1 ->
    words nd t r -> words nd (p ++ t) (option_map (Z.add (k + 1)) r).
(** a whole word of the text *)
Definition whole_word (text nd : list Z) (k : Z) : Prop := occurs uc_match text nd k /\ starts_word text k /\ ends_word text (k + zlen nd).
