(** Specification for filelist: glob patterns (POSIX 2.13) and the names to be listed.  Uses nothing of the model. *)
From Verif Require Import Base Cstr.

(** ** patterns *)
(** a bracket expression is left open: br p c p' = the bracket expression that p begins with (after
    the "[") matches the character c, and p' is behind it; or the "[" stands for itself *)
Section Glob.
Variable br : list Z -> Z -> list Z -> Prop.
Inductive matches : list Z -> list Z -> Prop :=
  | m_nil : matches [] []
  | m_ord c p s : c <> 42 -> c <> 63 -> c <> 91 -> c <> 92 -> matches p s -> matches (c :: p) (c :: s)
  | m_esc c p s : matches p s -> matches (92 :: c :: p) (c :: s)
  | m_any c p s : c <> 47 -> matches p s -> matches (63 :: p) (c :: s)
  | m_star0 p s : matches p s -> matches (42 :: p) s
  | m_star c p s : c <> 47 -> matches (42 :: p) s -> matches (42 :: p) (c :: s)
  | m_br p c p' s : br p c p' -> matches p' s -> matches (91 :: p) (c :: s).
End Glob.

(** ** names *)
(** a name glob gives: directory part and base name, marked with a slash if it is a directory *)
Record name := mkName { n_dir : list Z; n_base : list Z; n_mark : bool }.
Definition n_entry (n : name) : list Z := n_base n ++ (if n_mark n then [47] else []).
Definition n_path (n : name) : list Z := n_dir n ++ [47] ++ n_entry n.
Definition name_ok (n : name) : Prop := nz (n_path n) /\ bytes (n_path n) /\ ~ In 47 (n_base n) /\ n_base n <> [].
(** the flags: include "." , include "..", names only, include hidden *)
Record flf := mkFlf { f_dot : bool; f_dotdot : bool; f_nopath : bool; f_hidden : bool }.
Definition flf_val (f : flf) : Z := (if f_dot f then 1 else 0) + (if f_dotdot f then 2 else 0) + (if f_nopath f then 4 else 0) + (if f_hidden f then 8 else 0).
Definition is_dot (n : name) : bool := if list_eq_dec Z.eq_dec (n_base n) [46] then n_mark n else false.
Definition is_dotdot (n : name) : bool := if list_eq_dec Z.eq_dec (n_base n) [46; 46] then n_mark n else false.
(** hidden names asked for: "." and ".." are listed only if they are asked for too *)
Definition listed (f : flf) (n : name) : bool := negb (f_hidden f && ((is_dot n && negb (f_dot f)) || (is_dotdot n && negb (f_dotdot f)))).
Definition shown (f : flf) (n : name) : list Z := if f_nopath f then n_entry n else n_path n.
(** else they are put in front *)
Definition extra (f : flf) : list (list Z) :=
  if f_hidden f then [] else (if f_dot f then [[46; 47]] else []) ++ (if f_dotdot f then [[46; 46; 47]] else []).
Definition expected (f : flf) (ns : list name) : list (list Z) := extra f ++ map (shown f) (filter (listed f) ns).
