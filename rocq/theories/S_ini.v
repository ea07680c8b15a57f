(** Specification: ini files as lists of lines. *)
From Verif Require Import Base.

Definition header (name line : list Z) : bool :=
  if list_eq_dec Z.eq_dec (ztake (zlen name + 2) line) (91 :: name ++ [93]) then true else false.
Definition opens (line : list Z) : bool := match line with c :: _ => c =? 91 | [] => false end.
(** the lines up to the next header *)
Fixpoint body (ls : list (list Z)) : list (list Z) :=
  match ls with [] => [] | l :: ls => if opens l then [] else l :: body ls end.
(** first line and number of lines of every section of that name; ls starts at line i *)
Fixpoint sections (name : list Z) (i : Z) (ls : list (list Z)) : list (Z * Z) :=
  match ls with
  | [] => []
  | l :: ls => if header name l then (i + 1, zlen (body ls)) :: sections name (i + 1) ls else sections name (i + 1) ls
  end.
(** the line says key=v *)
Definition assigns (key line v : list Z) : Prop := line = key ++ 61 :: v.
(** [text] and blanks *)
Definition titled (line : list Z) : Prop :=
  3 <= zlen line /\ exists t ws, line = 91 :: t ++ 93 :: ws /\ Forall (fun c => c = 9 \/ c = 32) ws.
(** how often P holds *)
Inductive count {A} (P : A -> Prop) : list A -> Z -> Prop :=
  | count_nil : count P [] 0
  | count_yes x l n : P x -> count P l n -> count P (x :: l) (n + 1)
  | count_no x l n : ~ P x -> count P l n -> count P (x :: l) n.
