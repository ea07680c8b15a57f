(** Model of src/timelib but timestamp (M_fmtuse). *)
From Verif Require Import Base.

(** struct timespec / timeval: seconds and nano- or microseconds *)
Definition tspec : Type := Z * Z.
(** what one nanosleep(2) call does: sleeps for [slept] ns and then returns 0; is interrupted after
    [slept] ns and stores rem; fails with another errno *)
Inductive ns_event := Slept (slept : Z) | Eintr (slept : Z) (rem : tspec) | Err (errno : Z).
Definition EINTR := 4.
(** msleep.c 14, microsleep.c 14: while((ret = nanosleep(&req, &rem)) == -1 && errno == EINTR) req = rem;
    ev: the events of the successive calls (the result is Fuel if they end inside the loop).  Also
    gives the requests made. *)
Fixpoint sleep_loop (ev : list ns_event) (req : tspec) (trace : list tspec) : out (Z * list tspec) :=
  match ev with
  | [] => Fuel
  | e :: ev =>
      let trace := trace ++ [req] in
      match e with
      | Slept _ => Ret (0, trace)
      | Err errno => if errno =? EINTR then UB (* not an event: rem must be given *) else Ret (-1, trace)
      | Eintr _ rem => sleep_loop ev rem trace
      end
  end.
(** msleep.c 9-16 *)
Definition msleep (ev : list ns_event) (millisecs : Z) : out (Z * list tspec) :=
  let* a := i64_r (Z.rem millisecs 1000 * 1000) in
  let* nsec := i64_r (a * 1000) in
  sleep_loop ev (Z.quot millisecs 1000, nsec) [].
(** microsleep.c 9-16 *)
Definition microsleep (ev : list ns_event) (microsecs : Z) : out (Z * list tspec) :=
  let* nsec := i64_r (Z.rem microsecs 1000000 * 1000) in
  sleep_loop ev (Z.quot microsecs 1000000, nsec) [].
(** getutime.c 3-7; t: the result of gettimeofday *)
Definition getutime (t : tspec) : out Z :=
  let* a := i64_r (fst t * 1000) in
  let* b := i64_r (a * 1000) in
  i64_r (b + snd t).
(** timersub of <sys/time.h> *)
Definition timersub (a b : tspec) : out tspec :=
  let* s := i64_r (fst a - fst b) in
  let* u := i64_r (snd a - snd b) in
  if u <? 0 then let* s := i64_r (s - 1) in let* u := i64_r (u + 1000000) in Ret (s, u) else Ret (s, u).
(** mspassed.c 6-11; now: the result of gettimeofday *)
Definition mspassed (now t : tspec) : out Z :=
  let* d := timersub now t in
  let* a := i64_r (fst d * 1000) in
  i64_r (a + Z.quot (snd d) 1000).
(** timespec_diff.c 3-6 *)
Definition timespec_diff (a b : tspec) : out Z :=
  let* s := i64_r (fst a - fst b) in
  let* s := i64_r (s * 1000000000) in
  let* n := i64_r (snd a - snd b) in
  i64_r (s + n).
