(** Specification: durations and what nanosleep promises. *)
From Verif Require Import Base M_time.

(** the length of a time in units of 1/scale s *)
Definition total (scale : Z) (t : tspec) : Z := fst t * scale + snd t.
(** valid for the kernel *)
Definition valid (scale : Z) (t : tspec) : Prop := 0 <= fst t < 2 ^ 63 /\ 0 <= snd t < scale.
(** POSIX: a completed call sleeps at least as long as asked; an interrupted one stores the time
    left; an invalid request fails *)
Definition promised (req : tspec) (e : ns_event) : Prop :=
  match e with
  | Slept s => valid (10 ^ 9) req /\ total (10 ^ 9) req <= s
  | Eintr s rem => valid (10 ^ 9) req /\ 0 <= s /\ valid (10 ^ 9) rem /\ total (10 ^ 9) req <= s + total (10 ^ 9) rem
  | Err errno => errno <> EINTR
  end.
(** the times left that the interrupted calls store, up to the call that is not interrupted *)
Fixpoint lefts (ev : list ns_event) : list tspec :=
  match ev with Eintr _ rem :: ev => rem :: lefts ev | _ => [] end.
(** total time slept up to the call that is not interrupted, and whether that call failed *)
Fixpoint slept (ev : list ns_event) : Z :=
  match ev with [] => 0 | Slept s :: _ => s | Eintr s _ :: ev => s + slept ev | Err _ :: _ => 0 end.
Fixpoint fails (ev : list ns_event) : bool :=
  match ev with [] => false | Slept _ :: _ => false | Eintr _ _ :: ev => fails ev | Err _ :: _ => true end.
