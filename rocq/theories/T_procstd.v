(** C66: process_open with one of the descriptors 0, 1, 2 closed *)
From Verif Require Import Base M_proc P_proc T_proc.

Lemma pipes_ends f lim : forall n i k t ends, pipes f lim n i k t ends = let '(ok, t2, e) := pipes f lim n i k t [] in (ok, t2, ends ++ e).
Proof.
  induction n as [|n IH]; intros i k t ends; cbn [pipes]; [now rewrite app_nil_r|]. destruct (pipe _ _ _ _) as [[[r w] u]|]; [|now rewrite app_nil_r]. rewrite IH, (IH _ _ _ ([] ++ [r; w])). destruct (pipes f lim n (i + 1) k u []) as [[ok t2] e]. cbn [app]. now rewrite <- app_assoc.
Qed.
Lemma pipe_lowest f lim t k r w t' x : pipe f lim t k = Some (r, w, t') -> 0 <= x -> is_open t x = None -> r <= x.
Proof.
  unfold pipe. destruct f; [discriminate|]. destruct (newfd lim t (PipeR k)) as [[r1 t1]|] eqn:E1; [|discriminate]. destruct (newfd lim t1 (PipeW k)) as [[w1 t2]|]; [|discriminate]. intros E X N. injection E as <- <- <-. apply newfd_ok in E1 as (_ & _ & _ & M & _). destruct (Z_le_gt_dec r1 x); [assumption|]. exfalso. apply (M x); [lia|exact N].
Qed.
Lemma dup_closed t r rest : 0 <= r <= 2 -> actions t (map AClose [0; 1; 2] ++ ADup2 r 0 :: rest) = None.
Proof.
  intros R. cbn [map app actions]. rewrite !open_close. destruct (Z.eqb_spec r 2); [reflexivity|]. destruct (Z.eqb_spec r 1); [reflexivity|]. destruct (Z.eqb_spec r 0); [reflexivity|lia].
Qed.
Lemma keep_first t u0 w0 k u2 e : 0 < zlen t -> is_open t 0 = None -> zlen u0 = zlen t -> is_open t w0 = None -> w0 <> 0 ->
  (forall i, is_open u0 i = if i =? 0 then Some (PipeR k) else if i =? w0 then Some (PipeW k) else is_open t i) -> made u0 u2 e -> cleanup u2 (0 :: w0 :: e) = set t 0 (Some (PipeR k)).
Proof.
  intros L Z0 L0 Nw W Q (L2 & A & B). cbn [cleanup]. change (0 =? 0) with true. cbn iota. replace (w0 =? 0) with false by lia. assert (NI : ~ In 0 e). { intros I. apply B in I. rewrite Q in I. discriminate I. }
  rewrite cleanup_closes by exact NI. apply table_ext; [rewrite closes_len, close_len, set_len by lia; congruence|]. intros i. rewrite closes_open, open_close, open_set by lia. destruct (existsb (Z.eqb i) e) eqn:E.
  - apply existsb_exists in E as (x & I & X). apply Z.eqb_eq in X as <-. apply B in I. rewrite Q in I. destruct (i =? 0); [discriminate|]. destruct (i =? w0); [discriminate|]. now symmetry.
  - assert (NE : ~ In i e). { intros I. assert (existsb (Z.eqb i) e = true) by (apply existsb_exists; exists i; split; [exact I|apply Z.eqb_refl]). congruence. }
    rewrite (A i NE), Q. destruct (Z.eqb_spec i w0) as [->|]; [replace (w0 =? 0) with false by lia; now symmetry|]. reflexivity.
Qed.
(** it always fails, as the child's dup2 gets a descriptor that was closed before; all is as it was, but
    descriptor 0 stays open as the end of a pipe if it was closed and the first pipe was made *)
Definition first_pipe (fails : step -> bool) (lim k : Z) (t : table) : bool :=
  negb (existsb (fun i => fails (SClose1 i)) [0; 1; 2]) && match pipe (fails (SPipe 0)) lim t k with Some _ => true | None => false end.
Theorem c66_std_closed : forall fails lim k t, fails SInit = false -> 3 <= zlen t -> ~ std_open t ->
  process_open fails lim k t = Ret (Failed (if first_pipe fails lim k t && (match is_open t 0 with None => true | _ => false end) then set t 0 (Some (PipeR k)) else t)).
Proof.
  intros fails lim k t FI L NS. unfold process_open, first_pipe. rewrite FI. destruct (existsb (fun i => fails (SClose1 i)) [0; 1; 2]); [reflexivity|]. cbn [negb andb].
  assert (X : exists x, 0 <= x <= 2 /\ is_open t x = None).
  { destruct (is_open t 0) eqn:O0; [|exists 0; split; [lia|exact O0]]. destruct (is_open t 1) eqn:O1; [|exists 1; split; [lia|exact O1]]. destruct (is_open t 2) eqn:O2; [|exists 2; split; [lia|exact O2]]. elim NS. unfold std_open. rewrite O0, O1, O2. repeat split; discriminate. }
  destruct X as (x & X & NX). pose proof (pipes_made fails lim t 3 0 k t []) as M. assert (M0 : made t t []) by (repeat split; intros; contradiction || reflexivity). specialize (M M0). cbn [pipes] in *. rewrite Z.add_0_r in *.
  destruct (pipe (fails (SPipe 0)) lim t k) as [[[r0 w0] u0]|] eqn:P0; [|reflexivity]. cbn [app andb] in *. assert (R : r0 <= x) by (eapply pipe_lowest; [exact P0|lia|exact NX]). pose proof P0 as PO. apply pipe_ok in PO as (D0 & Nr0 & Nw0 & Rr0 & Rw0 & L0 & Q0). change (0 + 1) with 1 in *. change (1 + 1) with 2 in *.
  assert (K : forall u2 e, made u0 u2 e -> made t u2 (r0 :: w0 :: e) -> cleanup u2 (r0 :: w0 :: e) = if (match is_open t 0 with None => true | _ => false end) then set t 0 (Some (PipeR k)) else t).
  { intros u2 e M1 M2. destruct (is_open t 0) eqn:O0; [apply made_cleanup; [exact M2|congruence]|]. assert (r0 = 0) as -> by (pose proof (pipe_lowest _ _ _ _ _ _ _ 0 P0 ltac:(lia) O0); lia). now apply (keep_first t u0 w0 k u2 e); auto; lia. }
  pose proof (pipes_made fails lim u0 2 1 k u0 []) as M1. assert (M10 : made u0 u0 []) by (repeat split; intros; contradiction || reflexivity). specialize (M1 M10). cbn [pipes app] in M1. change (1 + 1) with 2 in *.
  destruct (pipe (fails (SPipe 1)) lim u0 (k + 1)) as [[[r1 w1] u1]|]; [|cbn [negb]; f_equal; f_equal; now apply K]. cbn [app] in *.
  destruct (pipe (fails (SPipe 2)) lim u1 (k + 2)) as [[[r2 w2] u2]|]; [|cbn [negb]; f_equal; f_equal; now apply K]. cbn [app negb] in *. rewrite (K u2 [r1; w1; r2; w2]) by assumption. cbv zeta.
  match goal with |- context [existsb ?f ?l] => destruct (existsb f l); [reflexivity|] end. match goal with |- context [existsb ?f ?l] => destruct (existsb f l); [reflexivity|] end.
  match goal with |- context [actions ?a ?b] => replace (actions a b) with (@None table) end; [reflexivity|]. symmetry. cbn [map]. rewrite <- app_assoc || idtac. cbn [app]. change (znth 0 [r0; w0; r1; w1; r2; w2] (2 * 0 + znth 0 pipeends 0)) with r0. apply (dup_closed u2 r0). lia.
Qed.
Print Assumptions c66_std_closed.
(** so success needs all three of them open *)
Theorem c66_needs_std : forall fails lim k t t' fds child, fails SInit = false -> 3 <= zlen t -> process_open fails lim k t = Ret (Opened t' fds child) -> std_open t.
Proof.
  intros fails lim k t t' fds child FI L E. unfold std_open. destruct (is_open t 0) eqn:O0; [destruct (is_open t 1) eqn:O1; [destruct (is_open t 2) eqn:O2; [repeat split; discriminate|]|]|];
    (rewrite c66_std_closed in E; [discriminate|exact FI|exact L|unfold std_open; rewrite ?O0, ?O1, ?O2; intros (? & ? & ?); congruence]).
Qed.
Print Assumptions c66_needs_std.
(* 1 closed: nothing left behind; 0 closed and no second pipe: descriptor 0 left *)
Example c66_std_ex : let o := Some (Other 0) in
  process_open (fun _ => false) 12 7 ([o; None; o] ++ zrepeat None 9) = Ret (Failed ([o; None; o] ++ zrepeat None 9)) /\
  process_open (fun s => match s with SPipe 1 => true | _ => false end) 12 7 ([None; o; o] ++ zrepeat None 9) = Ret (Failed ([Some (PipeR 7); o; o] ++ zrepeat None 9)).
Proof. split; reflexivity. Qed.
