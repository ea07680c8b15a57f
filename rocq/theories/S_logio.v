(** What reaches a descriptor when write takes only a part. *)
From Verif Require Import Base.

(** a call: descriptor, bytes, result *)
Definition wcall : Type := Z * list Z * Z.
(** what the file gets: of each call on fd the first bytes, as many as the result says *)
Definition part (fd : Z) (c : wcall) : list Z := match c with (f, x, r) => if f =? fd then ztake r x else [] end.
Definition arrives (fd : Z) (cs : list wcall) : list Z := concat (map (part fd) cs).
(** write(2) gives -1 or at most what was asked *)
Definition possible (c : wcall) : Prop := match c with (_, x, r) => -1 <= r <= zlen x end.
Definition complete (c : wcall) : Prop := match c with (_, x, r) => r = zlen x end.
(** t was asked to be written to fd, in some number of calls that had these results; no call is for nothing *)
Definition asked (wr : nat -> Z * Z) (before : nat) (fd : Z) (cs : list wcall) (t : list Z) : Prop :=
  concat (map (fun c => snd (fst c)) cs) = t /\
  forall i c, nth_error cs i = Some c -> fst (fst c) = fd /\ snd (fst c) <> [] /\ snd c = fst (wr (before + i)%nat).
