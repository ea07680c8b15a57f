(** Specification: string literals of C and of the shell.  Uses nothing of the model. *)
From Coq Require Import String Ascii.
From Verif Require Import Base.

Definition chars (s : string) : list Z := map (fun c => Z.of_nat (nat_of_ascii c)) (list_ascii_of_string s).
(** C: phase 1, ISO C99 5.2.1.1: the trigraphs ??= ??( ??/ ??) ??' ??< ??! ??> ??- *)
Definition trigraph (c : Z) : option Z :=
  option_map snd (find (fun p => fst p =? c) [(61, 35); (40, 91); (47, 92); (41, 93); (39, 94); (60, 123); (33, 124); (62, 125); (45, 126)]).
Fixpoint trigraphs (s : list Z) : list Z :=
  match s with
  | 63 :: ((63 :: c :: s') as s1) => match trigraph c with Some d => d :: trigraphs s' | None => 63 :: trigraphs s1 end
  | c :: s' => c :: trigraphs s'
  | [] => []
  end.
(** the value of what stands between two double quotes in a C program, where it needs no escapes: None if it
    has a backslash, a quote or a line end *)
Definition c_plain (c : Z) : bool := negb (existsb (Z.eqb c) [34; 92; 10]).
Definition c_literal (s : list Z) : option (list Z) := let s := trigraphs s in if forallb c_plain s then Some s else None.
(** shell, POSIX 2.2.2 and 2.2.3: between single quotes everything but the quote stands for itself; between
    double quotes everything but the dollar sign, the backquote, the backslash and the quote *)
Definition sq_literal (s : list Z) : option (list Z) := if existsb (Z.eqb 39) s then None else Some s.
Definition dq_literal (s : list Z) : option (list Z) := if existsb (fun c => existsb (Z.eqb c) [36; 96; 92; 34]) s then None else Some s.
(** isprint in the C locale *)
Definition printable (c : Z) : Prop := 32 <= c <= 126.
