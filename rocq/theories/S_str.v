(** Specification of the string helpers.  Uses nothing of the model. *)
From Verif Require Import Base.

Definition upper_letter (c : Z) : Prop := 65 <= c <= 90.
Definition lower_letter (c : Z) : Prop := 97 <= c <= 122.
Definition decimal_digit (c : Z) : Prop := 48 <= c <= 57.

(** upper-case form of a byte *)
Definition to_upper (c : Z) : Z := if (97 <=? c) && (c <=? 122) then c - 32 else c.
(** haystack byte h matches needle byte n *)
Definition uc_match (h n : Z) : Prop := to_upper h = n.
Definition star_match (h n : Z) : Prop := n = 42 \/ h = n.
(** the needle occurs at position k of the text *)
Definition occurs (R : Z -> Z -> Prop) (text needle : list Z) (k : Z) : Prop :=
  exists p m q, text = p ++ m ++ q /\ zlen p = k /\ Forall2 R m needle.

(** separators of words: space, tab, LF, colon, comma, dot, semicolon, minus; CR only after *)
Definition sep_before (c : Z) : Prop := In c [32; 9; 10; 58; 44; 46; 59; 45].
Definition sep_after (c : Z) : Prop := In c [32; 9; 10; 58; 44; 46; 59; 45; 13].
Definition ends_word (text : list Z) (k : Z) : Prop := k = zlen text \/ exists p c q, text = p ++ c :: q /\ zlen p = k /\ sep_after c.
Definition starts_word (text : list Z) (k : Z) : Prop := k = 0 \/ exists p c q, text = p ++ c :: q /\ zlen p = k - 1 /\ sep_before c.
