(** A client of sha512: sha512_init, sha512_update calls, sha512_end. *)
From Verif Require Import Base M_sha512.

(** one call sha512_update(ctx, buf + |p|, |l|) with buf = p ++ l ++ q *)
Definition chunk (c : list Z * list Z * list Z) : list Z := snd (fst c).
Fixpoint updates (c : ctx) (calls : list (list Z * list Z * list Z)) : out ctx :=
  match calls with
  | [] => Ret c
  | (p, l, q) :: calls => let* c := sha512_update (S (length l)) c (p ++ l ++ q) (zlen p) (zlen l) in updates c calls
  end.
(** the 64 bytes that sha512_end returns; c: the uninitialised context *)
Definition sha_run (c : ctx) (calls : list (list Z * list Z * list Z)) : out (list Z) :=
  let* c := sha512_init c in
  let* c := updates c calls in
  let* c := sha512_end c in
  Ret (ch c).
(** the chunking rule: sizes are multiples of 128, except that of the last non-empty chunk *)
Fixpoint allowed (ls : list (list Z)) : Prop :=
  match ls with [] => True | l :: ls => (zlen l mod 128 = 0 \/ concat ls = []) /\ allowed ls end.
