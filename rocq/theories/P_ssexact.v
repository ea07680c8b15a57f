(** ssa_alloc hands out a determined block. *)
From Verif Require Import Base Bits M_bitarray S_bitarray P_bitarray M_ssalloc D_ssalloc S_ssalloc P_ssalloc S_ssexact.
Ltac Zify.zify_post_hook ::= Z.div_mod_to_equations.

Lemma find_bit_first u : forall n i j, 0 <= i -> i + Z.of_nat n <= 8 * zlen u -> find_bit n u i = Ret (Some j) -> forall k, i <= k < j -> bt u k = true.
Proof.
  induction n as [|n IH]; intros i j I0 I1 F k K; [discriminate|]. cbn [find_bit] in F. rewrite get_bt in F by lia. cbn [bind] in F. destruct (bt u i) eqn:T; cbn [b2c Z.eqb] in F.
  - destruct (Z.eq_dec k i) as [->|]; [exact T|]. apply (IH (i + 1) j); auto; lia.
  - injection F as <-. lia.
Qed.
Lemma find_elem_first u : bytes u -> forall n b j, 0 <= b -> b + Z.of_nat n <= zlen u -> find_elem n u b = Ret (Some j) -> forall k, 8 * b <= k < j -> bt u k = true.
Proof.
  intros B. induction n as [|n IH]; intros b j B0 B1 F k K; [discriminate|]. cbn [find_elem] in F. rewrite (zread_ok 0) in F by lia. cbn [bind] in F.
  assert (R : (forall k, 0 <= k < 8 -> bt u (8 * b + k) = true) -> find_elem n u (b + 1) = Ret (Some j) -> bt u k = true).
  { intros Fu E. destruct (Z_lt_le_dec k (8 * (b + 1))); [replace k with (8 * b + (k - 8 * b)) by lia; apply Fu; lia|]. apply (IH (b + 1) j); auto; lia. }
  destruct (Z.eqb_spec (znth 0 u b) 255) as [E|E]; [apply R; [apply byte_full; auto; lia|exact F]|].
  destruct (find_bit_ok u 8 (8 * b)) as [(i & E1 & H1 & H2)|(E1 & H)]; [lia|lia| |]; rewrite E1 in F; cbn [bind] in F.
  - injection F as ->. apply (find_bit_first u 8 (8 * b) j); auto; lia.
  - apply R; [|exact F]. intros i Hi. apply H. lia.
Qed.
Section Pool.
Variables (M E : Z).
Hypothesis HM : 0 < M < 2 ^ 64.
Hypothesis HE : 0 < E.
Lemma alloc_answer p live size : inv M E p live -> exists p' r, ssa_alloc M E p size = Ret (p', r) /\ answer M E live size r /\ inv M E p' (with_block live r).
Proof using HM HE.
  intros I. pose proof I as (Lu & Bu & Tp & Hi0 & Tb & Nd & Hin & Av). destruct (size_M M HM _ Lu) as (S1 & S2 & S3).
  destruct (alloc_ok M E HM HE p live size I) as [(p' & d & R & Sz & Bl & Nin & I')|(R & Why)].
  - exists p', (Some d). split; [exact R|]. split; [|exact I']. unfold ssa_alloc in R. destruct (Z.ltb_spec E size) as [X|X]; [lia|]. destruct (Z.ltb_spec (top p) M) as [T|T].
    + cbv zeta in R. cbn [top used avail] in R. rewrite (u64_id (top p + 1)) in R by lia. rewrite u64_id in R by lia. replace (top p + 1 - 1) with (top p) in R by lia. unfold ssa_set in R. destruct (BA_SET_TRUE _ _); cbn [bind] in R; try discriminate. injection R as _ <-.
      apply a_top; [exact Sz|lia| |].
      * intros x Hx. apply Hin in Hx as (k & K1 & -> & K3). destruct (Z_lt_le_dec k (top p)); [nia|]. rewrite Hi0 in K3 by lia. discriminate.
      * destruct Tb as [Tb|Tb]; [now left|]. destruct (Z.eq_dec (top p) 0); [now left|]. right. apply Hin. exists (top p - 1). repeat split; auto; lia.
    + assert (Et : top p = M) by lia. destruct (negb (avail p =? 0)); [|discriminate]. destruct (find_elem_ok (used p) Bu (Z.to_nat (M / 8)) 0) as [(j & F & H1 & H2)|(F & H)]; [lia|lia| |]; rewrite F in R; cbn [bind] in R; [|discriminate].
      unfold ssa_set in R. destruct (BA_SET_TRUE _ _); cbn [bind] in R; try discriminate. injection R as _ <-.
      apply a_hole; [exact Sz| |lia|exact Nin|].
      * apply Hin. exists (M - 1). repeat split; try lia. destruct Tb as [Tb|Tb]; [lia|]. now rewrite <- Et.
      * intros i Hi. apply Hin. exists i. repeat split; try lia. apply (find_elem_first (used p) Bu (Z.to_nat (M / 8)) 0 j); auto; lia.
  - exists p, None. split; [exact R|]. split; [|exact I]. destruct (Z_lt_le_dec E size) as [X|X]; [now constructor|]. destruct Why as [W|[W|(_ & Et & W)]]; [lia| |].
    + assert (A : forall i, 0 <= i < M -> In (i * E) live) by (intros i Hi; apply (len_full M E HM p live I W); now exists i). apply a_none; [exact X|apply A; lia|]. intros i Hi. apply A. lia.
    + apply a_none; [exact X| |exact W]. apply Hin. exists (M - 1). repeat split; try lia. destruct Tb as [Tb|Tb]; [lia|]. now rewrite <- Et.
Qed.
Lemma run_answers : forall ops p live, inv M E p live -> Forall (ptr_ok E) ops ->
  exists rs p' live', run M E p ops = Ret (rs, p') /\ answers M E live ops rs live' /\ inv M E p' live'.
Proof using HM HE.
  induction ops as [|[size|d] ops IH]; intros p live I Fa; [exists [], p, live; split; [reflexivity|split; [constructor|exact I]]|..]; apply Forall_cons_iff in Fa as [Ok Fa]; cbn [run].
  - destruct (alloc_answer p live size I) as (p1 & r & R & A & I1). rewrite R. cbn [bind]. destruct (IH p1 _ I1 Fa) as (rs & p' & live' & -> & O & I'). cbn [bind]. do 3 eexists. split; [reflexivity|]. split; [econstructor; eauto|exact I'].
  - destruct (free_ok M E HM HE p live d I Ok) as (p1 & R & I1 & _). rewrite R. cbn [bind]. destruct (IH p1 _ I1 Fa) as (rs & p' & live' & R' & O & I'). do 3 eexists. split; [exact R'|]. split; [apply s_free; exact O|exact I'].
Qed.
Lemma answer_det live size r r' : (forall d, In d live -> block M E d) -> answer M E live size r -> answer M E live size r' -> r = r'.
Proof using HM HE.
  intros B A A'.
  assert (TOP : forall k, 0 <= k < M -> (forall d, In d live -> d < k * E) -> In ((M - 1) * E) live -> False) by (intros k K D I; specialize (D _ I); nia).
  destruct A as [X|k X K D T|j X I J N L|X I L], A' as [X'|k' X' K' D' T'|j' X' I' J' N' L'|X' I' L']; try reflexivity; try lia; try (exfalso; eapply TOP; eassumption).
  - f_equal. f_equal. assert (K1 : k <= k'). { destruct T as [->|T]; [lia|]. specialize (D' _ T). nia. } assert (K2 : k' <= k). { destruct T' as [->|T']; [lia|]. specialize (D _ T'). nia. } lia.
  - f_equal. f_equal. destruct (Z.lt_trichotomy j j') as [H|[H|H]]; [exfalso; apply N; apply L'; lia|exact H|exfalso; apply N'; apply L; lia].
  - exfalso. apply N. apply L'. lia.
  - exfalso. apply N'. apply L. lia.
Qed.
Lemma fill n : forall p live k, inv M E p live -> 0 <= k -> k + Z.of_nat n <= M -> (forall d, In d live <-> exists i, 0 <= i < k /\ d = i * E) ->
  exists p' live', run M E p (repeat (Alloc E) n) = Ret (map (fun i => Some ((k + Z.of_nat i) * E)) (seq 0 n), p') /\ inv M E p' live' /\ (forall d, In d live' <-> exists i, 0 <= i < k + Z.of_nat n /\ d = i * E).
Proof using HM HE.
  induction n as [|n IH]; intros p live k I K0 K H; cbn [repeat run].
  - exists p, live. split; [reflexivity|]. split; [exact I|]. now rewrite Z.add_0_r.
  - destruct (alloc_answer p live E I) as (p1 & r & R & A & I1). rewrite R. cbn [bind].
    assert (r = Some (k * E)) as ->.
    { apply (answer_det live E); [intros d Hd; exact (live_in M E p live d I Hd)|exact A|]. apply a_top; [lia|lia| |].
      - intros d Hd. apply H in Hd as (i & Hi & ->). nia. - destruct (Z.eq_dec k 0); [now left|right]. apply H. exists (k - 1). lia. }
    destruct (IH p1 _ (k + 1) I1 ltac:(lia) ltac:(lia)) as (p2 & live2 & -> & I2 & H2).
    { cbn [with_block]. intros d. split.
      - intros [<-|Hd]; [exists k; lia|]. apply H in Hd as (i & Hi & ->). exists i. lia. - intros (i & Hi & ->). destruct (Z.eq_dec i k) as [->|]; [now left|right]. apply H. exists i. lia. }
    cbn [bind]. exists p2, live2. split; [|split; [exact I2|]].
    + f_equal. f_equal. cbn [seq map]. f_equal; [do 2 f_equal; lia|]. rewrite <- seq_shift, map_map. apply map_ext. intros i. do 2 f_equal. lia.
    + intros d. rewrite H2. replace (k + 1 + Z.of_nat n) with (k + Z.of_nat (S n)) by lia. reflexivity.
Qed.
Lemma run_app : forall a b p rs p1, run M E p a = Ret (rs, p1) -> run M E p (a ++ b) = let* (qs, p2) := run M E p1 b in Ret (rs ++ qs, p2).
Proof using.
  induction a as [|[size|d] a IH]; intros b p rs p1 R; cbn [run app] in *.
  - injection R as <- <-. now destruct (run M E p b) as [[? ?]| |].
  - destruct (ssa_alloc M E p size) as [[p0 r]| |]; cbn [bind] in *; try discriminate. destruct (run M E p0 a) as [[q p2]| |] eqn:RA; cbn [bind] in R; try discriminate. injection R as <- <-. rewrite (IH b p0 q p2 RA). now destruct (run M E p2 b) as [[? ?]| |].
  - destruct (ssa_free M E p d) as [p0| |]; cbn [bind] in *; try discriminate. now apply IH.
Qed.
End Pool.
