(** Proofs about timelib. *)
From Verif Require Import Base M_time S_time.
Ltac Zify.zify_post_hook ::= Z.div_mod_to_equations.

Lemma i64_fit x : - 2 ^ 63 <= x < 2 ^ 63 -> i64_r x = Ret x.
Proof. intros H. unfold i64_r, i64_ok. change (2 ^ 63) with 9223372036854775808 in H. now replace (_ && _) with true by lia. Qed.
Lemma loop_trace ev : forall req tr r tr', sleep_loop ev req tr = Ret (r, tr') -> tr' = tr ++ req :: lefts ev /\ r = if fails ev then -1 else 0.
Proof.
  induction ev as [|e ev IH]; intros req tr r tr' H; [discriminate|]. cbn [sleep_loop] in H. destruct e as [s|s rem|e]; cbn [lefts fails].
  - injection H as <- <-. now split.
  - apply IH in H as [-> ->]. split; [|reflexivity]. now rewrite <- app_assoc.
  - destruct (e =? EINTR); [discriminate|]. injection H as <- <-. now split.
Qed.
Lemma loop_slept ev : forall req, valid (10 ^ 9) req -> Forall2 promised (req :: lefts ev) (ztake (zlen (req :: lefts ev)) ev) ->
  Forall (valid (10 ^ 9)) (req :: lefts ev) /\ (fails ev = false -> total (10 ^ 9) req <= slept ev).
Proof.
  induction ev as [|e ev IH]; intros req V H.
  - rewrite ztake_all in H by (zl; pose proof (zlen_nonneg (lefts [])); zl; lia). inversion H.
  - destruct e as [s|s rem|e]; cbn [lefts fails slept] in *.
    + split; [constructor; [assumption|constructor]|]. intros _. inversion_clear H as [|? ? ? ? P _]. apply P.
    + assert (E : ztake (zlen (req :: rem :: lefts ev)) (Eintr s rem :: ev) = Eintr s rem :: ztake (zlen (rem :: lefts ev)) ev).
      { unfold ztake, zlen. cbn [length]. rewrite !Nat2Z.id. reflexivity. }
      rewrite E in H. inversion_clear H as [|? ? ? ? P Q]. destruct P as (_ & S0 & Vr & T). destruct (IH rem Vr Q) as [A B]. split; [constructor; assumption|]. intros F. specialize (B F). lia.
    + split; [constructor; [assumption|constructor]|]. discriminate.
Qed.
Lemma loop_prog ev : forall req tr, Forall (fun e => e <> Err EINTR) ev -> (exists e, In e ev /\ forall s rem, e <> Eintr s rem) -> exists r tr', sleep_loop ev req tr = Ret (r, tr').
Proof.
  induction ev as [|e ev IH]; intros req tr W (x & I & N); [destruct I|]. cbn [sleep_loop]. inversion_clear W. destruct e as [s|s rem|e].
  - eexists _, _. reflexivity.
  - apply IH; [assumption|]. exists x. split; [|assumption]. destruct I as [<-|I]; [|assumption]. now elim (N s rem).
  - destruct (Z.eqb_spec e EINTR) as [->|]; [now elim H|]. eexists _, _. reflexivity.
Qed.
(** the first request *)
Lemma msleep_req ev ms : 0 <= ms < 2 ^ 63 -> exists req, msleep ev ms = sleep_loop ev req [] /\ valid (10 ^ 9) req /\ total (10 ^ 9) req = ms * 10 ^ 6.
Proof.
  intros H. change (2 ^ 63) with 9223372036854775808 in H. unfold msleep. rewrite Z.rem_mod_nonneg, Z.quot_div_nonneg by lia. rewrite i64_fit by lia. cbn [bind]. rewrite i64_fit by lia. cbn [bind].
  eexists. split; [reflexivity|]. unfold valid, total. cbn [fst snd]. change (10 ^ 9) with 1000000000. change (10 ^ 6) with 1000000. lia.
Qed.
Lemma microsleep_req ev us : 0 <= us < 2 ^ 63 -> exists req, microsleep ev us = sleep_loop ev req [] /\ valid (10 ^ 9) req /\ total (10 ^ 9) req = us * 10 ^ 3.
Proof.
  intros H. change (2 ^ 63) with 9223372036854775808 in H. unfold microsleep. rewrite Z.rem_mod_nonneg, Z.quot_div_nonneg by lia. rewrite i64_fit by lia. cbn [bind].
  eexists. split; [reflexivity|]. unfold valid, total. cbn [fst snd]. change (10 ^ 9) with 1000000000. change (10 ^ 3) with 1000. lia.
Qed.
Lemma sleep_ok ev req r tr : valid (10 ^ 9) req -> sleep_loop ev req [] = Ret (r, tr) -> Forall2 promised tr (ztake (zlen tr) ev) ->
  Forall (valid (10 ^ 9)) tr /\ tr = req :: lefts ev /\ (fails ev = false -> r = 0 /\ total (10 ^ 9) req <= slept ev) /\ (fails ev = true -> r = -1).
Proof.
  intros V L F. apply loop_trace in L as [-> ->]. cbn [app] in *. destruct (loop_slept ev req V F) as [A B]. split; [assumption|]. split; [reflexivity|]. split.
  - intros E. rewrite E. split; [reflexivity|auto].
  - intros E. now rewrite E.
Qed.
(** arithmetic *)
Lemma diff_ok a b : - 9 * 10 ^ 9 <= fst a - fst b <= 9 * 10 ^ 9 -> 0 <= snd a < 10 ^ 9 -> 0 <= snd b < 10 ^ 9 -> timespec_diff a b = Ret (total (10 ^ 9) a - total (10 ^ 9) b).
Proof.
  change (10 ^ 9) with 1000000000. intros S A B. unfold timespec_diff, total. rewrite (i64_fit (fst a - fst b)) by lia. cbn [bind]. rewrite i64_fit by lia. cbn [bind]. rewrite i64_fit by lia. cbn [bind]. rewrite i64_fit by lia. f_equal. lia.
Qed.
Lemma mspassed_ok now t : - 9 * 10 ^ 15 <= fst now - fst t <= 9 * 10 ^ 15 -> 0 <= snd now < 10 ^ 6 -> 0 <= snd t < 10 ^ 6 ->
  mspassed now t = Ret ((total (10 ^ 6) now - total (10 ^ 6) t) / 1000).
Proof.
  change (10 ^ 6) with 1000000. change (10 ^ 15) with 1000000000000000. intros S A B. unfold mspassed, timersub, total. rewrite (i64_fit (fst now - fst t)) by lia. cbn [bind]. rewrite (i64_fit (snd now - snd t)) by lia. cbn [bind].
  destruct (Z.ltb_spec (snd now - snd t) 0).
  - rewrite i64_fit by lia. cbn [bind]. rewrite i64_fit by lia. cbn [bind fst snd]. rewrite i64_fit by lia. cbn [bind]. rewrite Z.quot_div_nonneg by lia. rewrite i64_fit by lia. f_equal. lia.
  - cbn [bind fst snd]. rewrite i64_fit by lia. cbn [bind]. rewrite Z.quot_div_nonneg by lia. rewrite i64_fit by lia. f_equal. lia.
Qed.
Lemma getutime_ok t : - 9 * 10 ^ 12 <= fst t <= 9 * 10 ^ 12 -> 0 <= snd t < 10 ^ 6 -> getutime t = Ret (total (10 ^ 6) t).
Proof.
  change (10 ^ 6) with 1000000. change (10 ^ 12) with 1000000000000. intros S A. unfold getutime, total. rewrite i64_fit by lia. cbn [bind]. rewrite i64_fit by lia. cbn [bind]. rewrite i64_fit by lia. f_equal. lia.
Qed.
