(** C68, C69: timelib. *)
From Verif Require Import Base M_time S_time P_time.

(** C68: msleep and microsleep make valid requests, each one after an interruption for the time
    left; 0 is returned after at least the time asked for, -1 as soon as another error occurs *)
Theorem c68_msleep ev ms r tr : 0 <= ms < 2 ^ 63 -> msleep ev ms = Ret (r, tr) -> Forall2 promised tr (ztake (zlen tr) ev) ->
  Forall (valid (10 ^ 9)) tr /\ (exists req, tr = req :: lefts ev /\ total (10 ^ 9) req = ms * 10 ^ 6) /\
  (fails ev = false -> r = 0 /\ ms * 10 ^ 6 <= slept ev) /\ (fails ev = true -> r = -1).
Proof.
  intros H L F. destruct (msleep_req ev ms H) as (req & E & V & T). rewrite E in L. destruct (sleep_ok ev req r tr V L F) as (A & B & C & D). rewrite T in C. split; [exact A|]. split; [|split; assumption]. now exists req.
Qed.
Theorem c68_microsleep ev us r tr : 0 <= us < 2 ^ 63 -> microsleep ev us = Ret (r, tr) -> Forall2 promised tr (ztake (zlen tr) ev) ->
  Forall (valid (10 ^ 9)) tr /\ (exists req, tr = req :: lefts ev /\ total (10 ^ 9) req = us * 10 ^ 3) /\
  (fails ev = false -> r = 0 /\ us * 10 ^ 3 <= slept ev) /\ (fails ev = true -> r = -1).
Proof.
  intros H L F. destruct (microsleep_req ev us H) as (req & E & V & T). rewrite E in L. destruct (sleep_ok ev req r tr V L F) as (A & B & C & D). rewrite T in C. split; [exact A|]. split; [|split; assumption]. now exists req.
Qed.
(** C68: they return as soon as one call is not interrupted *)
Theorem c68_return ev t : 0 <= t < 2 ^ 63 -> Forall (fun e => e <> Err EINTR) ev -> (exists e, In e ev /\ forall s rem, e <> Eintr s rem) ->
  (exists r tr, msleep ev t = Ret (r, tr)) /\ (exists r tr, microsleep ev t = Ret (r, tr)).
Proof.
  intros H W X. destruct (msleep_req ev t H) as (r1 & E1 & _). destruct (microsleep_req ev t H) as (r2 & E2 & _). rewrite E1, E2. split; now apply loop_prog.
Qed.
(** C69: the exact difference in ns (285 years fit) *)
Theorem c69_diff a b : - 9 * 10 ^ 9 <= fst a - fst b <= 9 * 10 ^ 9 -> 0 <= snd a < 10 ^ 9 -> 0 <= snd b < 10 ^ 9 ->
  timespec_diff a b = Ret (total (10 ^ 9) a - total (10 ^ 9) b).
Proof. exact (diff_ok a b). Qed.
(** C69: the elapsed time in ms, rounded down, also if it is negative *)
Theorem c69_mspassed now t : - 9 * 10 ^ 15 <= fst now - fst t <= 9 * 10 ^ 15 -> 0 <= snd now < 10 ^ 6 -> 0 <= snd t < 10 ^ 6 ->
  mspassed now t = Ret ((total (10 ^ 6) now - total (10 ^ 6) t) / 1000).
Proof. exact (mspassed_ok now t). Qed.
Theorem c69_getutime t : - 9 * 10 ^ 12 <= fst t <= 9 * 10 ^ 12 -> 0 <= snd t < 10 ^ 6 -> getutime t = Ret (total (10 ^ 6) t).
Proof. exact (getutime_ok t). Qed.
Print Assumptions c68_msleep.
Print Assumptions c68_microsleep.
Print Assumptions c68_return.
Print Assumptions c69_diff.
Print Assumptions c69_mspassed.
Print Assumptions c69_getutime.
Example c68_ex : let ev := [Eintr 1000000000 (0, 500000000); Eintr 499999000 (0, 1000); Slept 60000] in
  msleep ev 1500 = Ret (0, [(1, 500000000); (0, 500000000); (0, 1000)]) /\ microsleep ev 1500000 = msleep ev 1500 /\
  msleep [Eintr 5 (3, 0); Err 14] 3000 = Ret (-1, [(3, 0); (3, 0)]) /\ Forall2 promised [(1, 500000000); (0, 500000000); (0, 1000)] ev.
Proof. split; [reflexivity|]. split; [reflexivity|]. split; [reflexivity|]. apply Forall2_cons; [|apply Forall2_cons; [|apply Forall2_cons; [|apply Forall2_nil]]]; cbn; unfold valid, total; cbn; lia. Qed.
Example c69_ex : timespec_diff (5, 100) (7, 999999999) = Ret (-2999999899) /\ mspassed (10, 1000) (9, 999000) = Ret 2 /\ mspassed (9, 0) (9, 1) = Ret (-1) /\ getutime (1600000000, 7) = Ret 1600000000000007.
Proof. repeat split. Qed.
