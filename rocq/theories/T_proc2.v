(** C66: when process_open succeeds, exactly. *)
From Verif Require Import Base M_proc P_proc T_proc S_procsteps.

Lemma newfd_needs lim t o fd t' : 0 <= lim <= zlen t -> newfd lim t o = Some (fd, t') -> 0 < free lim t.
Proof.
  intros L E. apply newfd_ok in E as (R & Lt & N & _ & _). unfold is_open in N. replace ((0 <=? fd) && (fd <? zlen t)) with true in N by lia.
  assert (I : In None (filter isnone (ztake lim t))).
  { apply filter_In. split; [|reflexivity]. rewrite <- N. rewrite <- (ztake_zdrop lim t) at 1. rewrite znth_app1 by (rewrite zlen_ztake; lia). apply znth_In. rewrite zlen_ztake; lia. }
  unfold free. destruct (filter isnone (ztake lim t)) as [|x l]; [destruct I|]. rewrite zlen_cons. pose proof (zlen_nonneg l). lia.
Qed.
Lemma pipe_needs b lim t j r w t' : 0 <= lim <= zlen t -> pipe b lim t j = Some (r, w, t') -> b = false /\ 2 <= free lim t /\ free lim t' = free lim t - 2 /\ zlen t' = zlen t.
Proof.
  intros L. unfold pipe. destruct b; [discriminate|]. destruct (newfd lim t (PipeR j)) as [[x t1]|] eqn:E1; [|discriminate]. destruct (newfd lim t1 (PipeW j)) as [[y t2]|] eqn:E2; [|discriminate].
  intros E. injection E as <- <- <-. split; [reflexivity|]. pose proof (newfd_needs _ _ _ _ _ L E1) as F1. destruct (newfd_free lim t (PipeR j) L F1) as (x' & Q1 & G1 & L1). rewrite Q1 in E1. injection E1 as <- <-.
  rewrite <- L1 in L. pose proof (newfd_needs _ _ _ _ _ L E2) as F2. destruct (newfd_free lim _ (PipeW j) L F2) as (y' & Q2 & G2 & L2). rewrite Q2 in E2. injection E2 as <- <-. lia.
Qed.
Lemma same_steps fails lim k t : fails SInit = false -> (forall s, call s -> fails s = false) -> process_open fails lim k t = process_open (fun _ => false) lim k t.
Proof.
  intros I F. assert (Q : forall i, 0 <= i < 3 -> fails (SClose1 i) = false /\ fails (SPipe i) = false /\ fails (SDup2 i) = false /\ fails (SClose2 i 0) = false /\ fails (SClose2 i 1) = false).
  { intros i Hi. repeat split; apply F; right; exists i; tauto. }
  destruct (Q 0 ltac:(lia)) as (A1 & A2 & A3 & A4 & A5). destruct (Q 1 ltac:(lia)) as (B1 & B2 & B3 & B4 & B5). destruct (Q 2 ltac:(lia)) as (C1 & C2 & C3 & C4 & C5).
  assert (P : pipes fails lim 3 0 k t [] = pipes (fun _ => false) lim 3 0 k t []).
  { cbn [pipes]. change (0 + 1) with 1. change (1 + 1) with 2. now rewrite A2, B2, C2. }
  unfold process_open. rewrite I, P. cbn [existsb]. rewrite A1, B1, C1, A3, B3, C3, A4, A5, B4, B5, C4, C5, (F SSpawn (or_introl eq_refl)). reflexivity.
Qed.
(** C66: it succeeds exactly if no call fails by itself and six descriptors are free *)
Theorem c66_opened_iff : forall fails lim k t, std_open t -> fails SInit = false -> 0 <= lim <= zlen t ->
  (exists t' fds child, process_open fails lim k t = Ret (Opened t' fds child)) <-> (forall s, call s -> fails s = false) /\ 6 <= free lim t.
Proof.
  intros fails lim k t S I L. split.
  - intros (t' & fds & child & E). unfold process_open in E. rewrite I in E.
    destruct (existsb (fun i => fails (SClose1 i)) [0; 1; 2]) eqn:X1; [discriminate|].
    destruct (pipes fails lim 3 0 k t []) as [[ok t1] ends] eqn:P. destruct ok; cbn [negb] in E; [|discriminate].
    destruct (existsb (fun i => fails (SDup2 i)) [0; 1; 2]) eqn:X2; [discriminate|].
    destruct (existsb (fun i => fails (SClose2 i 0) || fails (SClose2 i 1)) [0; 1; 2]) eqn:X3; [discriminate|].
    destruct (actions t1 _) as [ch|]; [|discriminate]. destruct (fails SSpawn) eqn:X4; [discriminate|]. clear E.
    cbn [pipes] in P. change (0 + 1) with 1 in P. change (1 + 1) with 2 in P.
    destruct (pipe (fails (SPipe 0)) lim t (k + 0)) as [[[r0 w0] u0]|] eqn:P0; [|discriminate]. destruct (pipe_needs _ _ _ _ _ _ _ L P0) as (F0 & N0 & G0 & L0). rewrite <- L0 in L.
    destruct (pipe (fails (SPipe 1)) lim u0 (k + 1)) as [[[r1 w1] u1]|] eqn:P1; [|discriminate]. destruct (pipe_needs _ _ _ _ _ _ _ L P1) as (F1 & N1 & G1 & L1). rewrite <- L1 in L.
    destruct (pipe (fails (SPipe 2)) lim u1 (k + 2)) as [[[r2 w2] u2]|] eqn:P2; [|discriminate]. destruct (pipe_needs _ _ _ _ _ _ _ L P2) as (F2 & N2 & G2 & L2).
    split; [|lia]. cbn [existsb] in X1, X2, X3. rewrite !orb_false_iff in X1, X2, X3.
    intros s [->|(i & Hi & Hs)]; [exact X4|]. clear P P0 P1 P2. decompose [and] X1. decompose [and] X2. repeat setoid_rewrite orb_false_iff in X3. decompose [and] X3. assert (i = 0 \/ i = 1 \/ i = 2) as [->|[->| ->]] by (clear - Hi; lia); destruct Hs as [->|[->|[->|[->| ->]]]]; assumption.
  - intros (F & N). rewrite (same_steps fails lim k t I F). apply c66_succeeds; auto.
Qed.
Print Assumptions c66_opened_iff.
(** otherwise it fails and the descriptors are as before *)
Theorem c66_failed_iff : forall fails lim k t, std_open t -> fails SInit = false -> 0 <= lim <= zlen t ->
  process_open fails lim k t = Ret (Failed t) <-> (exists s, call s /\ fails s = true) \/ free lim t < 6.
Proof.
  intros fails lim k t S I L. pose proof (c66_opened_iff fails lim k t S I L) as Q. destruct (c66_open fails lim k t S I) as [E|(a & b & c & t' & ch & E & _)]; rewrite E in *.
  - split; [intros _|auto]. destruct (Z_lt_dec (free lim t) 6) as [|N]; [now right|left].
    assert (D : (exists s, call s /\ fails s = true) \/ forall s, call s -> fails s = false).
    { assert (W : forall l, (exists s, In s l /\ fails s = true) \/ forall s, In s l -> fails s = false).
      { induction l as [|x l [(s & Hs & Fs)|IH]]; [right; intros s []|left; exists s; split; [now right|exact Fs]|]. destruct (fails x) eqn:X; [left; exists x; split; [now left|exact X]|right; intros s [<-|Hs]; auto]. }
      set (all := SSpawn :: flat_map (fun i => [SClose1 i; SPipe i; SDup2 i; SClose2 i 0; SClose2 i 1]) [0; 1; 2]).
      assert (Ia : forall s, In s all <-> call s).
      { intros s. unfold all, call. split.
        - intros [<-|Hs]; [now left|right]. apply in_flat_map in Hs as (i & Hi & Hs). exists i. cbn [In] in Hi, Hs. split; [intuition lia|]. intuition.
        - intros [->|(i & Hi & Hs)]; [now left|right]. apply in_flat_map. exists i. cbn [In]. split; [lia|]. intuition. }
      destruct (W all) as [(s & Hs & Fs)|H]; [left; exists s; split; [now apply Ia|exact Fs]|right; intros s Hs; now apply H, Ia]. }
    destruct D as [D|D]; [exact D|]. exfalso. destruct Q as [_ Q]. destruct Q as (x & y & z & Q); [split; [exact D|lia]|discriminate].
  - split; [discriminate|]. intros H. exfalso. destruct Q as [Q _]. destruct Q as (F & N); [eauto|]. destruct H as [(s & Hs & Fs)|H]; [rewrite (F s Hs) in Fs; discriminate|lia].
Qed.
Print Assumptions c66_failed_iff.
(** ten slots, three taken: seven free; a limit of 8 leaves five *)
Example c66_iff_ex : let t := [Some (Other 1); Some (Other 1); Some (Other 1)] ++ zrepeat None 7 in
  std_open t /\ free 10 t = 7 /\ free 8 t = 5 /\ call (SDup2 1) /\ process_open (fun _ => false) 8 4 t = Ret (Failed t) /\
  match process_open (fun _ => false) 9 4 t with Ret (Opened _ [4; 5; 7] _) => True | _ => False end.
Proof. cbv zeta. split; [repeat split; discriminate|]. split; [reflexivity|]. split; [reflexivity|]. split; [right; exists 1; split; [lia|tauto]|]. split; vm_compute; auto. Qed.
