(** A client of crc32: InitTables, Init, Update calls, Final. *)
From Verif Require Import Base M_crc32.

(** one call Update(ctx, buf + |p|, |l|) with buf = p ++ l ++ q *)
Definition chunk (c : list Z * list Z * list Z) : list Z := snd (fst c).
Fixpoint updates (ts : list (list Z)) (st : Z) (calls : list (list Z * list Z * list Z)) : out Z :=
  match calls with
  | [] => Ret st
  | (p, l, q) :: calls => let* st := Update (S (length l)) ts st (p ++ l ++ q) (zlen p) (zlen l) in updates ts st calls
  end.
Definition crc_run (poly : Z) (cbuf : list Z) (calls : list (list Z * list Z * list Z)) : out (list Z) :=
  let* ts := InitTables poly in
  let* st := updates ts Init calls in
  let* (_, c) := Final cbuf st in
  Ret c.
