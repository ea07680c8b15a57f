(** Specification for stringptr and stringptrlist: plain byte strings. *)
From Verif Require Import Base.

(** d occurs in t at position i *)
Definition occurs_at (d t : list Z) (i : Z) : Prop := exists p q, t = p ++ d ++ q /\ zlen p = i.
Definition occurs (d t : list Z) : Prop := exists i, occurs_at d t i.

(** pieces joined by a separator *)
Fixpoint join (sep : list Z) (ps : list (list Z)) : list Z :=
  match ps with
  | [] => []
  | [p] => p
  | p :: ps => p ++ sep ++ join sep ps
  end.
(** t is cut at the leftmost occurrence of d, then the rest likewise *)
Inductive cut (d : list Z) : list Z -> list (list Z) -> Prop :=
| CutEnd t : ~ occurs d t -> cut d t [t]
| CutAt p r ps : (forall i, i < zlen p -> ~ occurs_at d (p ++ d ++ r) i) -> cut d r ps -> cut d (p ++ d ++ r) (p :: ps).
(** where the pieces lie: the first at off, [gap] bytes between neighbours *)
Fixpoint places (off gap : Z) (ps : list (list Z)) : list (Z * Z) :=
  match ps with
  | [] => []
  | p :: ps => (off, zlen p) :: places (off + zlen p + gap) gap ps
  end.

(** SysV ABI ELF hash with a 32-bit unsigned long; h < 2^28 *)
Definition elf_step (h c : Z) : Z :=
  let t := (16 * h + c) mod 2 ^ 32 in Z.lxor (t mod 2 ^ 28) (16 * (t / 2 ^ 28)).
Definition elf_hash (s : list Z) : Z := fold_left elf_step s 0.

Definition line_break (c : Z) : Prop := c = 10 \/ c = 13.
(** every string followed by a line ending *)
Definition lines (eol : list Z) (ts : list (list Z)) : list Z := concat (map (fun t => t ++ eol) ts).
(** i is the first position of x in l *)
Definition first_at {A} (x : A) (l : list A) (i : Z) : Prop := exists p q, l = p ++ x :: q /\ ~ In x p /\ zlen p = i.
(** t = p ++ c :: q where no later byte equals c *)
Definition last_at (c : Z) (t : list Z) (i : Z) : Prop := exists p q, t = p ++ c :: q /\ ~ In c q /\ zlen p = i.
