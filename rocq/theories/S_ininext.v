(** Specification: the values that are shown for the sections of one name. *)
From Verif Require Import Base S_ini S_iniuse.

(** the value if the line is key=value *)
Definition value_in (key line : list Z) : option (list Z) :=
  if eqs (ztake (zlen key + 1) line) (key ++ [61]) then Some (zdrop (zlen key + 1) line) else None.
Fixpoint first_value (key : list Z) (ls : list (list Z)) : option (list Z) :=
  match ls with
  | [] => None
  | l :: ls => match value_in key l with Some v => Some v | None => first_value key ls end
  end.
(** the lines of a section, given as first line and number *)
Definition lines_of (ls : list (list Z)) (s : Z * Z) : list (list Z) := ztake (snd s) (zdrop (fst s) ls).
(** up to the first section without lines *)
Fixpoint until_empty (ss : list (Z * Z)) : list (Z * Z) :=
  match ss with [] => [] | s :: ss => if snd s =? 0 then [] else s :: until_empty ss end.
(** a C string ends at the first NUL *)
Fixpoint until_nul (t : list Z) : list Z := match t with [] => [] | c :: t => if c =? 0 then [] else c :: until_nul t end.
(** "value of section: " *)
Definition shown_text : list Z := [118; 97; 108; 117; 101; 32; 111; 102; 32; 115; 101; 99; 116; 105; 111; 110; 58; 32].
(** an empty value is not shown; one line is cut to 4095 characters *)
Definition shown (v : option (list Z)) : list (list Z) :=
  match v with
  | None | Some [] => []
  | Some t => [ztake 4095 (shown_text ++ until_nul t ++ [10])]
  end.
(** the same for a file made of sections and entries (S_iniuse) *)
Fixpoint before_empty (f : ini_data) : ini_data :=
  match f with [] => [] | s :: f => match snd s with [] => [] | _ => s :: before_empty f end end.
Definition named (name : list Z) (f : ini_data) : ini_data := filter (fun s => eqs (fst s) name) f.
Definition value_for (key : list Z) (es : list (list Z * list Z)) : option (list Z) := option_map snd (find (fun e => eqs (fst e) key) es).
