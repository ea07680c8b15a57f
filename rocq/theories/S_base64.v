(** RFC 4648 section 4, written over bit strings (most significant bit first).
    Uses nothing of the model. *)
From Verif Require Import Base.

(** the [n] low bits of v, most significant first *)
Fixpoint to_bits (n : nat) (v : Z) : list bool :=
  match n with O => [] | S n => Z.testbit v (Z.of_nat n) :: to_bits n v end.
Fixpoint bits_val (l : list bool) : Z :=
  match l with [] => 0 | b :: l => (if b then 2 ^ zlen l else 0) + bits_val l end.

(** cut into groups of n bits, an incomplete last group dropped *)
Fixpoint cut (fuel n : nat) (l : list bool) : list (list bool) :=
  match fuel with
  | O => []
  | S fuel => if (n <=? length l)%nat then firstn n l :: cut fuel n (skipn n l) else []
  end.
Definition groups (n : nat) (l : list bool) : list Z := map bits_val (cut (length l) n l).

(** Table 1 of the RFC *)
Definition alphabet (v : Z) : Z :=
  if v <? 26 then 65 + v else if v <? 52 then 97 + (v - 26)
  else if v <? 62 then 48 + (v - 52) else if v =? 62 then 43 else 47.
Definition is_alpha (c : Z) : Prop := exists v, 0 <= v < 64 /\ alphabet v = c.

Definition pad_len (n : Z) : Z := (- n) mod 3.   (* '=' signs for n input bytes *)

(** encoding: bit string padded with zeros to a multiple of 6, then '=' *)
Definition b64 (x : list Z) : list Z :=
  let bits := concat (map (to_bits 8) x) in
  map alphabet (groups 6 (bits ++ repeat false (Z.to_nat (2 * pad_len (zlen x)))))
  ++ zrepeat 61 (pad_len (zlen x)).

(** decoding *)
Definition value_of (c : Z) : Z :=   (* inverse of the alphabet, '=' as 0 *)
  if (65 <=? c) && (c <=? 90) then c - 65
  else if (97 <=? c) && (c <=? 122) then c - 97 + 26
  else if (48 <=? c) && (c <=? 57) then c - 48 + 52
  else if c =? 43 then 62 else if c =? 47 then 63 else 0.
(** bytes of the bit string, '=' contributing zero bits *)
Definition b64_raw (s : list Z) : list Z := groups 8 (concat (map (fun c => to_bits 6 (value_of c)) s)).

(** well-formed: alphabet characters, then at most two '=', length a multiple of 4 *)
Definition wellformed (body : list Z) (pad : Z) : Prop :=
  Forall is_alpha body /\ 0 <= pad <= 2 /\ (zlen body + pad) mod 4 = 0.
Definition is_b64 (s : list Z) (pad : Z) : Prop :=
  exists body, s = body ++ zrepeat 61 pad /\ wellformed body pad.
(** the decoded bytes: those of the bits of the characters before the padding *)
Definition b64_decoded (s : list Z) (pad : Z) : list Z := b64_raw (ztake (zlen s - pad) s).
