(** Specification: which argument answers op_hasflag and op_get, for every name. *)
From Verif Require Import Base.

Definition same (a b : list Z) : bool := if list_eq_dec Z.eq_dec a b then true else false.
(** the argument without its '-', or without "--" if the name sought has n > 1 characters *)
Definition strip (n : Z) (s : list Z) : option (list Z) :=
  match s with
  | c :: t => if c =? 45 then Some (match t with d :: u => if (1 <? n) && (d =? 45) then u else t | [] => t end) else None
  | [] => None
  end.
(** the text before and behind the first '=' *)
Fixpoint cut (t : list Z) : option (list Z * list Z) :=
  match t with
  | [] => None
  | c :: t => if c =? 61 then Some ([], t) else match cut t with Some (a, v) => Some (c :: a, v) | None => None end
  end.
(** the value of f: number of the argument and offset in it; the arguments given are numbered from i *)
Fixpoint value_of (f : list Z) (i : Z) (args : list (list Z)) : option (Z * Z) :=
  match args with
  | [] => None
  | s :: rest =>
      let next := value_of f (i + 1) rest in
      let separate (t : list Z) := if same t f then match rest with [] => next | _ => Some (i + 1, 0) end else next in
      match strip (zlen f) s with
      | None => next
      | Some t =>
          match cut t with
          | Some (a, v) => if same a f then Some (i, zlen s - zlen v) else if same a [] then separate t else next
          | None => if same f [] then Some (i, zlen s - zlen t + 1) else separate t
          end
      end
  end.
