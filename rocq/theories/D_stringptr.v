(** What a stringptr denotes. *)
From Verif Require Import Base M_stringptr.

(** s points to the text t inside its object; [pre]/[post] are the bytes around it *)
Definition holds_in (s : sp) (pre t post : list Z) : Prop :=
  sb s = pre ++ t ++ post /\ so s = zlen pre /\ sz s = zlen t /\ zlen (sb s) < 2 ^ 63.
Definition holds (s : sp) (t : list Z) : Prop := exists pre post, holds_in s pre t post.
(** a freshly allocated stringptr: 16 bytes struct, the text, a NUL, nothing else *)
Definition new_with (s : sp) (t : list Z) : Prop :=
  exists hd, zlen hd = 16 /\ s = mkSp (hd ++ t ++ [0]) 16 (zlen t).
(** v is the end of line: the same object, the same end *)
Definition tail_of (line v : sp) : Prop := sb v = sb line /\ so v + sz v = so line + sz line.
