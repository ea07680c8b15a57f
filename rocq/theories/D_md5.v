(** A client of md5: md5_init, then md5_update and md5_end calls in any order. *)
From Verif Require Import Base M_md5.

(** [up p l q]: md5_update(ctx, buf + |p|, |l|) with buf = p ++ l ++ q.
    [fin j d]: md5_end(ctx, d), with j the initial content of its local buffer. *)
Inductive call := up (p l q : list Z) | fin (j d : list Z).
Fixpoint md5_calls (c : ctx) (calls : list call) : out (list (list Z)) :=
  match calls with
  | [] => Ret []
  | up p l q :: calls => let* c := md5_update (S (length l)) c (p ++ l ++ q) (zlen p) (zlen l) in md5_calls c calls
  | fin j d :: calls => let* d := md5_end j c d in let* ds := md5_calls c calls in Ret (d :: ds)
  end.
Definition md5_run (junk : list Z) (calls : list call) : out (list (list Z)) := md5_calls (md5_init junk) calls.
(** what the data seen so far is at each md5_end, with the destination *)
Fixpoint seen (d : list Z) (calls : list call) : list (list Z * list Z) :=
  match calls with [] => [] | up _ l _ :: calls => seen (d ++ l) calls | fin _ x :: calls => (d, x) :: seen d calls end.
Definition call_ok (c : call) : Prop := match c with up _ l _ => bytes l | fin j x => zlen j = 64 /\ 16 <= zlen x end.
