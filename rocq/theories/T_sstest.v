(** C99: clients of ssalloc.c with DEBUG; tests/ssalloc_test.c. *)
From Verif Require Import Base M_bitarray S_bitarray P_bitarray M_ssalloc D_ssalloc S_ssalloc P_ssalloc M_sstest S_sstest P_sstest.

Lemma live_somes st : live st = zlen (somes st).
Proof. unfold live. induction st as [|[c|] st IH]; cbn [filter somes]; rewrite ?zlen_cons; [reflexivity|lia|exact IH]. Qed.
Lemma put_same {A} (d : A) l i : 0 <= i < zlen l -> put l i (znth d l i) = l.
Proof. intros I. symmetry. now apply zsplit1. Qed.
Lemma upd_len st i b : 0 <= i < zlen st -> zlen (upd st i b) = zlen st.
Proof. exact (put_len st i b). Qed.
Lemma hspec_len M E st o n : hop_ok E n o -> zlen st = n -> zlen (hspec M E st o) = n.
Proof.
  intros V L. destruct o as [i size|i data|i]; cbn [hop_ok hspec] in *.
  - destruct (znth None st i); [exact L|]. destruct (_ && _); [|exact L]. rewrite upd_len; lia.
  - destruct (znth None st i); [|exact L]. rewrite upd_len; lia.
  - rewrite upd_len; lia.
Qed.
Section Heap.
Variables (M E : Z).
Hypothesis HM : 0 < M < 2 ^ 64.
Hypothesis M8 : M mod 8 = 0.
Hypothesis HE : 0 < E.
Lemma hstep_ok w st o : rep M E w st -> hop_ok E (zlen st) o -> exists w', hstep M E w o = Ret (Some w') /\ rep M E w' (hspec M E st o).
Proof using All.
  intros R V. pose proof (r_len _ _ _ _ R) as L. destruct o as [i size|i data|i]; cbn [hstep hspec hop_ok] in *.
  - rewrite (zread_ok None) by lia. cbn [bind]. pose proof (r_all _ _ _ _ R i V) as H. destruct (znth None (hptrs w) i) eqn:Np, (znth None st i) eqn:Ns; cbn [holds] in H; try tauto; [eauto|].
    destruct (alloc_step M E HM M8 HE w st i size R V Ns) as (w' & -> & R'). cbn [bind]. exists w'. split; [reflexivity|]. rewrite live_somes. destruct (_ && _); [exact R'|]. rewrite <- Ns in R'. now rewrite put_same in R'.
  - destruct (store_step M E HM M8 HE w st i data R ltac:(lia) ltac:(lia)) as (w' & -> & R' & _). cbn [bind]. eauto.
  - exact (free_step M E HM M8 HE w st i R V).
Qed.
Lemma hrun_ok os : forall w st, rep M E w st -> Forall (hop_ok E (zlen st)) os -> exists w', hrun M E w os = Ret (Some w') /\ rep M E w' (fold_left (hspec M E) os st).
Proof using All.
  induction os as [|o os IH]; intros w st R V; cbn [hrun fold_left]; [eauto|]. inversion V as [|? ? V0 V']; subst. destruct (hstep_ok w st o R V0) as (w' & -> & R'). cbn [bind]. apply (IH w' (hspec M E st o) R'). now rewrite (hspec_len M E st o _ V0 eq_refl).
Qed.
End Heap.
(** C99: whatever a client does, no call aborts; an allocation fails only when it must; the client's blocks are distinct, lie
    in the pool, and hold what was stored last; avail and top tell the number of blocks left and the end of the last one *)
Theorem c99_heap M E n os : 0 < M < 2 ^ 64 -> M mod 8 = 0 -> 0 < E -> 0 <= n -> Forall (hop_ok E n) os ->
  let st := fold_left (hspec M E) os (zrepeat None n) in
  exists w, hrun M E (heap_init M E n) os = Ret (Some w) /\ zlen (hptrs w) = n /\ zlen st = n /\
    (forall i, 0 <= i < n -> match znth None st i with
      | None => znth None (hptrs w) i = None
      | Some c => exists d, znth None (hptrs w) i = Some d /\ block M E d /\ zlen c <= E /\ zreads (hm w) d (zlen c) = Ret c
      end) /\
    (forall i j d, 0 <= i < n -> 0 <= j < n -> znth None (hptrs w) i = Some d -> znth None (hptrs w) j = Some d -> i = j) /\
    avail (hp w) = M - live st /\
    (forall d, In (Some d) (hptrs w) -> d + E <= top (hp w) * E) /\
    (top (hp w) = 0 \/ In (Some ((top (hp w) - 1) * E)) (hptrs w)).
Proof.
  intros HM M8 HE N V st. assert (Ln : zlen (zrepeat (@None (list Z)) n) = n) by (apply zlen_zrepeat; lia).
  destruct (hrun_ok M E HM M8 HE os _ _ (init_rep M E HM M8 HE n N)) as (w & Run & R); [now rewrite Ln|]. fold st in R.
  assert (Ls : zlen st = n). { unfold st. clear -V Ln. revert Ln. generalize (zrepeat (@None (list Z)) n). induction V as [|o os V0 V IH]; intros st L; cbn [fold_left]; [exact L|]. apply IH. now apply (hspec_len M E st o n). }
  pose proof (r_len _ _ _ _ R) as L. exists w. split; [exact Run|]. split; [lia|]. split; [exact Ls|]. split; [|split; [|split; [|split]]].
  - intros i I. pose proof (r_all _ _ _ _ R i ltac:(lia)) as H. destruct (znth None st i) as [c|], (znth None (hptrs w) i) as [d|] eqn:Np; cbn [holds] in H; try tauto. exists d. split; [reflexivity|]. split; [|exact H]. apply (rep_block M E HM M8 HE w st i d R); [lia|exact Np].
  - intros i j d I J. apply (somes_inj (hptrs w)); [|lia|lia]. apply (r_inv _ _ _ _ R).
  - rewrite live_somes, <- (rep_count M E HM M8 HE w st R). apply (r_inv _ _ _ _ R).
  - intros d Hd. destruct (r_inv _ _ _ _ R) as (Lu & _ & Tp & Hi & _ & _ & A7 & _). apply somes_in, A7 in Hd as (k & K & -> & B). destruct (size_M M HM _ Lu) as (S1 & _ & _).
    destruct (Z_lt_le_dec k (top (hp w))); [nia|]. rewrite Hi in B by lia. discriminate.
  - destruct (r_inv _ _ _ _ R) as (Lu & _ & Tp & Hi & [T0|Tb] & _ & A7 & _); [auto|]. destruct (Z.eq_dec (top (hp w)) 0); [auto|]. right. apply somes_in, A7. exists (top (hp w) - 1). repeat split; auto; lia.
Qed.
Print Assumptions c99_heap.
(** ** the test *)
Section Test.
Variables (M E : Z) (rnd : nat -> bool).
Hypothesis HM : 0 < M < 2 ^ 64.
Hypothesis M8 : M mod 8 = 0.
Hypothesis HE : 6 <= E.
Definition abc (st : blocks) : Prop := forall i, 0 <= i < zlen st -> znth None st i = None \/ znth None st i = Some ABC.
Lemma abc_put st i b : abc st -> 0 <= i < zlen st -> b = None \/ b = Some ABC -> abc (put st i b).
Proof using All. intros A I B j J. rewrite put_len in J by lia. unfold put. rewrite znth_upd by lia. destruct (j =? i); auto. Qed.
Lemma take_ok w st i : rep M E w st -> zlen st = M -> 0 <= i < M -> znth None st i = None ->
  exists w1 w2, alloc_at M E w i E = Ret w1 /\ store_at w1 i ABC = Ret w2 /\ rep M E w2 (put st i (Some ABC)).
Proof using All.
  intros R L I N. destruct (alloc_step M E HM M8 ltac:(lia) w st i E R ltac:(lia) N) as (w1 & E1 & R1). pose proof (somes_none st i ltac:(lia) N). replace ((E <=? E) && (zlen (somes st) <? M)) with true in R1 by lia.
  destruct (store_step M E HM M8 ltac:(lia) w1 _ i ABC R1 ltac:(rewrite put_len by lia; lia) HE) as (w2 & E2 & R2 & _). exists w1, w2. split; [exact E1|]. split; [exact E2|].
  unfold put at 1 in R2. rewrite znth_upd in R2 by lia. rewrite Z.eqb_refl in R2. replace (put (put st i (Some [])) i (Some (ABC ++ zdrop (zlen ABC) []))) with (put st i (Some ABC)) in R2; [exact R2|].
  apply (znth_ext None); [rewrite !put_len; rewrite ?put_len; lia|]. intros j J. rewrite put_len in J by lia. unfold put at 1 2. rewrite !znth_upd by (rewrite ?put_len; lia). destruct (Z.eqb_spec j i); [reflexivity|]. unfold put. rewrite znth_upd by lia. replace (j =? i) with false by lia. reflexivity.
Qed.
Lemma round1_ok n : forall i k w st, rep M E w st -> zlen st = M -> abc st -> 0 <= i -> i + Z.of_nat n = M -> (forall j, i <= j < M -> znth None st j = None) ->
  exists k' w' st', round1 M E rnd n i k w = Ret (k', w') /\ rep M E w' st' /\ zlen st' = M /\ abc st'.
Proof using All.
  induction n as [|n IH]; intros i k w st R L A I In N; cbn [round1]; [exists k, w, st; auto|]. destruct (rnd k); [|apply (IH (i + 1) (S k) w st); auto; try lia; intros j J; apply N; lia].
  destruct (take_ok w st i R L ltac:(lia) (N i ltac:(lia))) as (w1 & w2 & -> & E2 & R2). cbn [bind]. rewrite E2. cbn [bind]. apply (IH (i + 1) (S k) w2 (put st i (Some ABC))); auto; try lia; [rewrite put_len; lia|apply abc_put; auto; lia|].
  intros j J. unfold put. rewrite znth_upd by lia. replace (j =? i) with false by lia. apply N. lia.
Qed.
Lemma fill_ok random n : forall i k w st, rep M E w st -> zlen st = M -> abc st -> 0 <= i -> i + Z.of_nat n = M -> (random = false -> forall j, 0 <= j < i -> znth None st j <> None) ->
  exists k' w' st', fill M E rnd random n i k w = Ret (k', w') /\ rep M E w' st' /\ zlen st' = M /\ abc st' /\ (random = false -> forall j, 0 <= j < M -> znth None st' j <> None).
Proof using All.
  induction n as [|n IH]; intros i k w st R L A I In N; cbn [fill]; [exists k, w, st; split; [reflexivity|]; split; [exact R|]; split; [exact L|]; split; [exact A|]; intros Hr j J; apply N; auto; lia|].
  pose proof (r_len _ _ _ _ R) as Lp. rewrite (zread_ok None) by lia. cbn [bind]. pose proof (r_all _ _ _ _ R i ltac:(lia)) as H. destruct (znth None (hptrs w) i) eqn:Np, (znth None st i) eqn:Ns; cbn [holds] in H; try tauto.
  - apply (IH (i + 1) k w st); auto; try lia. intros Hr j J. destruct (Z.eq_dec j i) as [->|]; [congruence|apply N; auto; lia].
  - cbv zeta. set (k' := if random then S k else k). destruct (negb random || rnd k) eqn:C.
    + destruct (take_ok w st i R L ltac:(lia) Ns) as (w1 & w2 & -> & E2 & R2). cbn [bind]. rewrite E2. cbn [bind]. apply (IH (i + 1) k' w2 (put st i (Some ABC))); auto; try lia; [rewrite put_len; lia|apply abc_put; auto; lia|].
      intros Hr j J. unfold put. rewrite znth_upd by lia. destruct (Z.eqb_spec j i); [discriminate|]. apply N; auto; lia.
    + apply (IH (i + 1) k' w st); auto; try lia. intros ->. discriminate.
Qed.
Lemma frees_ok random n : forall i k w st, rep M E w st -> zlen st = M -> abc st -> 0 <= i -> i + Z.of_nat n = M -> (random = false -> forall j, 0 <= j < i -> znth None st j = None) ->
  exists k' w' st', frees M E rnd random n i k w = Ret (Some (k', w')) /\ rep M E w' st' /\ zlen st' = M /\ abc st' /\ (random = false -> forall j, 0 <= j < M -> znth None st' j = None).
Proof using All.
  induction n as [|n IH]; intros i k w st R L A I In N; cbn [frees]; [exists k, w, st; split; [reflexivity|]; split; [exact R|]; split; [exact L|]; split; [exact A|]; intros Hr j J; apply N; auto; lia|].
  pose proof (r_len _ _ _ _ R) as Lp. rewrite (zread_ok None) by lia. cbn [bind]. pose proof (r_all _ _ _ _ R i ltac:(lia)) as H. destruct (znth None (hptrs w) i) eqn:Np, (znth None st i) eqn:Ns; cbn [holds] in H; try tauto.
  - cbv zeta. set (k' := if random then S k else k). destruct (negb random || rnd k) eqn:C.
    + destruct (free_step M E HM M8 ltac:(lia) w st i R ltac:(lia)) as (w1 & -> & R1). cbn [bind]. apply (IH (i + 1) k' w1 (put st i None)); auto; try lia; [rewrite put_len; lia|apply abc_put; auto; lia|].
      intros Hr j J. unfold put. rewrite znth_upd by lia. destruct (Z.eqb_spec j i); [reflexivity|]. apply N; auto; lia.
    + apply (IH (i + 1) k' w st); auto; try lia. intros ->. discriminate.
  - apply (IH (i + 1) k w st); auto; try lia. intros Hr j J. destruct (Z.eq_dec j i) as [->|]; [congruence|apply N; auto; lia].
Qed.
Lemma data_ok w st n : forall i, rep M E w st -> zlen st = M -> abc st -> (forall j, 0 <= j < M -> znth None st j <> None) -> 0 <= i -> i + Z.of_nat n = M -> check_data n i w = Ret (Some tt).
Proof using All.
  induction n as [|n IH]; intros i R L A F I In; cbn [check_data]; [reflexivity|]. pose proof (r_len _ _ _ _ R) as Lp. rewrite (zread_ok None) by lia. cbn [bind]. pose proof (r_all _ _ _ _ R i ltac:(lia)) as H. destruct (A i ltac:(lia)) as [N|Ns]; [destruct (F i); auto; lia|]. rewrite Ns in H.
  destruct (znth None (hptrs w) i) as [d|]; cbn [holds] in H; [|tauto]. destruct H as [_ H]. change (zlen ABC) with 6 in H. rewrite H. cbn [bind]. destruct (list_eq_dec Z.eq_dec ABC ABC); [|congruence]. cbn [assert]. apply IH; auto; lia.
Qed.
Lemma bits_ok v skip w n : forall i, zlen (used (hp w)) = BA_SIZE_REQUIRED M -> (forall j, 0 <= j < M -> j <> skip -> b2c (bt (used (hp w)) j) = v) -> 0 <= i -> i + Z.of_nat n = M -> check_bits v skip n i w = Ret (Some tt).
Proof using All.
  induction n as [|n IH]; intros i L B I In; cbn [check_bits]; [reflexivity|]. destruct (size_M M HM _ L) as (S1 & _ & _). destruct (Z.eqb_spec i skip); [apply IH; auto; lia|]. rewrite get_bt by lia. cbn [bind]. rewrite B by lia. rewrite Z.eqb_refl. apply IH; auto; lia.
Qed.
Lemma test_ok c : 0 <= c < M -> ssalloc_test M E rnd c = Ret (Some tt).
Proof using All.
  intros Hc. unfold ssalloc_test. cbv zeta. assert (NM : 0 + Z.of_nat (Z.to_nat M) = M) by lia. set (n := Z.to_nat M) in *. clearbody n.
  destruct (round1_ok n 0 0 _ _ (init_rep M E HM M8 ltac:(lia) M ltac:(lia))) as (k1 & w1 & st1 & -> & R1 & L1 & A1); [apply zlen_zrepeat; lia| |lia|exact NM|intros; apply znth_zrepeat; lia|].
  { intros i I. left. rewrite zlen_zrepeat in I by lia. now apply znth_zrepeat. }
  cbn [bind]. destruct (fill_ok true n 0 k1 w1 st1 R1 L1 A1 ltac:(lia) NM) as (k2 & w2 & st2 & -> & R2 & L2 & A2 & _); [discriminate|]. cbn [bind].
  destruct (frees_ok true n 0 k2 w2 st2 R2 L2 A2 ltac:(lia) NM) as (k3 & w3 & st3 & -> & R3 & L3 & A3 & _); [discriminate|]. cbn [bind].
  destruct (fill_ok false n 0 k3 w3 st3 R3 L3 A3 ltac:(lia) NM) as (k4 & w4 & st4 & -> & R4 & L4 & A4 & F4); [intros; lia|]. specialize (F4 eq_refl). cbn [bind].
  assert (Full : zlen (somes (hptrs w4)) = M). { rewrite (rep_count M E HM M8 ltac:(lia) w4 st4 R4), <- L4. apply somes_full. rewrite L4. exact F4. }
  pose proof (r_inv _ _ _ _ R4) as J4. pose proof J4 as (Lu & Bu & Tp & Hi & Tb & Nd & A7 & Av). destruct (size_M M HM _ Lu) as (S1 & _ & _).
  assert (B4 : forall j, 0 <= j < M -> bt (used (hp w4)) j = true).
  { intros j Hj. pose proof (len_full M E ltac:(lia) _ _ J4 Full (j * E)) as X. destruct (proj1 (A7 (j * E)) (X ltac:(exists j; auto))) as (j' & _ & EQ & B). apply Z.mul_reg_r in EQ; [|lia]. rewrite EQ. exact B. }
  rewrite Av, Full. replace (M - M =? 0) with true by lia. cbn [assert]. assert (Tt : top (hp w4) = M). { destruct (Z.eq_dec (top (hp w4)) M); [auto|]. pose proof (B4 (top (hp w4)) ltac:(lia)) as X. rewrite Hi in X by lia. discriminate. }
  rewrite Tt, Z.eqb_refl. cbn [assert]. rewrite (data_ok w4 st4 n 0 R4 L4 A4 F4 ltac:(lia) NM). cbn [bind]. rewrite (bits_ok 1 (-1) w4 n 0 Lu (fun j Hj _ => f_equal b2c (B4 j Hj)) ltac:(lia) NM). cbn [bind].
  pose proof (r_len _ _ _ _ R4) as Lp. rewrite (zread_ok None) by lia. cbn [bind]. pose proof (r_all _ _ _ _ R4 c ltac:(lia)) as H. pose proof (F4 c Hc) as Fc. destruct (znth None (hptrs w4) c) as [d|] eqn:Np, (znth None st4 c) eqn:Ns; cbn [holds] in H; try tauto; try congruence.
  destruct (rep_block M E HM M8 ltac:(lia) w4 st4 c d R4 ltac:(lia) Np) as ((k & K & Ek) & _). assert (G : ssa_getidx E d = k) by (subst d; unfold ssa_getidx; rewrite Z.rem_mul, Z.quot_mul by lia; reflexivity). rewrite G. replace (0 <=? k) with true by lia. replace (k <? M) with true by lia. cbn [assert].
  destruct (free_step M E HM M8 ltac:(lia) w4 st4 c R4 ltac:(lia)) as (w5 & F5 & R5). rewrite F5. cbn [bind]. pose proof (r_inv _ _ _ _ R5) as (Lu5 & _ & _ & _ & _ & _ & A75 & Av5).
  assert (P5 : hptrs w5 = put (hptrs w4) c None).
  { unfold free_at in F5. rewrite (zread_ok None) in F5 by lia. cbn [bind] in F5. rewrite Np in F5. destruct (ssa_free_dbg _ _ _ _) as [[p|]| |]; cbn [bind] in F5; try discriminate. rewrite zwrite_ok in F5 by lia. cbn [bind] in F5. now injection F5 as <-. }
  assert (C5 : zlen (somes (hptrs w5)) = M - 1).
  { rewrite P5. rewrite (zsplit1 None c (hptrs w4)) in Full by lia. rewrite Np, somes_app in Full. unfold put. rewrite somes_app. cbn [somes] in *. revert Full. zl. lia. }
  rewrite Av5, C5. replace (M - (M - 1) =? 1) with true by lia. cbn [assert]. rewrite (bits_ok 1 k w5 n 0 Lu5); [|intros j Hj Nj|lia|exact NM].
  2: { assert (X : In (j * E) (somes (hptrs w5))).
       { pose proof (len_full M E ltac:(lia) _ _ J4 Full (j * E) ltac:(exists j; auto)) as X. rewrite (zsplit1 None c (hptrs w4)) in X by lia. rewrite Np, somes_app in X. cbn [somes] in X. rewrite P5. unfold put. rewrite somes_app. cbn [somes]. apply in_app_or in X as [X|[X|X]]; [apply in_or_app; auto| |apply in_or_app; auto]. subst d. apply Z.mul_reg_r in X; [lia|lia]. }
       apply A75 in X as (j' & _ & EQ & B). apply Z.mul_reg_r in EQ; [|lia]. subst j'. now rewrite B. }
  cbn [bind]. destruct (frees_ok false n 0 k4 w5 _ R5 ltac:(rewrite put_len by lia; exact L4) ltac:(apply abc_put; auto; lia) ltac:(lia) NM) as (k6 & w6 & st6 & -> & R6 & L6 & A6 & F6); [intros; lia|]. specialize (F6 eq_refl). cbn [bind].
  assert (Em : somes (hptrs w6) = []). { pose proof (rep_count M E HM M8 ltac:(lia) w6 st6 R6) as X. rewrite (somes_empty st6) in X by (rewrite L6; exact F6). now apply zlen_0. }
  pose proof (r_inv _ _ _ _ R6) as (Lu6 & _ & Tp6 & _ & Tb6 & _ & A76 & Av6). rewrite Em in *. assert (B6 : forall j, 0 <= j < M -> bt (used (hp w6)) j = false).
  { intros j Hj. destruct (bt (used (hp w6)) j) eqn:B; [|reflexivity]. exfalso. apply (proj2 (A76 (j * E))). exists j. auto. }
  rewrite Av6. change (zlen (@nil Z)) with 0. replace (M - 0 =? M) with true by lia. cbn [assert]. replace (top (hp w6) =? 0) with true.
  2: { symmetry. apply Z.eqb_eq. destruct Tb6 as [|Tb6]; [auto|]. destruct (Z.eq_dec (top (hp w6)) 0); [auto|]. rewrite B6 in Tb6 by lia. discriminate. }
  cbn [assert]. apply bits_ok; auto; [|lia]. intros j Hj _. now rewrite B6.
Qed.
End Test.
(** C99: tests/ssalloc_test.c passes whatever rand() gives, also for other sizes of the pool and of its elements *)
Theorem c99_test M E rnd c : 0 < M < 2 ^ 64 -> M mod 8 = 0 -> 6 <= E -> 0 <= c < M -> ssalloc_test M E rnd c = Ret (Some tt).
Proof. intros. now apply test_ok. Qed.
Print Assumptions c99_test.
(** with elements shorter than the text the test writes past them; the last write is outside the pool *)
Theorem c99_test_small_refuted : exists M E rnd, 0 < M < 2 ^ 64 /\ M mod 8 = 0 /\ 0 < E /\ ssalloc_test M E rnd 0 = UB.
Proof. exists 8, 4, (fun _ => true). repeat split; vm_compute; reflexivity. Qed.
Print Assumptions c99_test_small_refuted.
(** with a pool of 12 elements, which ssalloc.c accepts, it can fail *)
Theorem c99_test_12_refuted : exists rnd, accepted 12 = true /\ ssalloc_test 12 6 rnd 0 = Ret None.
Proof. exists (fun k => negb (Nat.eqb k 0) && negb (Nat.leb 12 k) || Nat.eqb k 22 || Nat.eqb k 12). split; vm_compute; reflexivity. Qed.
Print Assumptions c99_test_12_refuted.
Example c99_ex : exists w, hrun 8 4 (heap_init 8 4 3) [HAlloc 1 4; HAlloc 0 4; HStore 1 [1; 2; 3; 4]; HStore 0 [7; 8]; HFree 1; HAlloc 2 9; HAlloc 2 3; HStore 0 [9]] = Ret (Some w) /\ hptrs w = [Some 4; None; Some 8] /\ zreads (hm w) 4 2 = Ret [9; 8] /\ avail (hp w) = 6 /\ top (hp w) = 3.
Proof. eexists. split; [vm_compute; reflexivity|]. repeat split. Qed.
Example c99_ex2 : ssalloc_test 256 6 (fun k => Nat.odd (Nat.div k 3)) 46 = Ret (Some tt).
Proof. vm_compute. reflexivity. Qed.
