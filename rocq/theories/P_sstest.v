(** Lemmas on the allocator with the content of its blocks. *)
From Verif Require Import Base M_bitarray S_bitarray P_bitarray M_ssalloc D_ssalloc S_ssalloc P_ssalloc M_sstest.
From Coq Require Import Permutation.

(** ** memory *)
Lemma writes_spec {A} (m : list A) d l : 0 <= d -> d + zlen l <= zlen m ->
  exists m', zwrites m d l = Ret m' /\ zlen m' = zlen m /\
    (forall e n, 0 <= n -> e + n <= d \/ d + zlen l <= e -> zreads m' e n = zreads m e n) /\
    (forall c, zreads m d (zlen c) = Ret c -> zreads m' d (zlen (l ++ zdrop (zlen l) c)) = Ret (l ++ zdrop (zlen l) c)).
Proof.
  intros D0 D1. pose proof (zlen_nonneg l) as L0. pose proof (zlen_nonneg m) as M0. exists (ztake d m ++ l ++ zdrop (d + zlen l) m). split; [apply zwrites_ok; auto|].
  assert (Lm : zlen (ztake d m ++ l ++ zdrop (d + zlen l) m) = zlen m) by (zl; rewrite zlen_ztake, zlen_zdrop by lia; lia). split; [exact Lm|]. split.
  - intros e n N0 [H|H].
    + destruct (Z_lt_le_dec e 0); [rewrite !zreads_oob by lia; reflexivity|]. rewrite !zreads_ok by lia. f_equal. rewrite zdrop_app1 by (rewrite zlen_ztake; lia). rewrite ztake_app1 by (rewrite zlen_zdrop; rewrite zlen_ztake; lia).
      rewrite <- (ztake_zdrop d m) at 2. rewrite zdrop_app1 by (rewrite zlen_ztake; lia). rewrite ztake_app1 by (rewrite zlen_zdrop; rewrite zlen_ztake; lia). reflexivity.
    + destruct (Z_lt_le_dec (zlen m) (e + n)); [rewrite !zreads_oob by lia; reflexivity|]. rewrite !zreads_ok by lia. f_equal. f_equal. rewrite zdrop_app2 by (rewrite zlen_ztake; lia). rewrite zlen_ztake by lia. rewrite zdrop_app2 by lia. rewrite zdrop_zdrop by lia. f_equal. lia.
  - intros c. set (v := l ++ zdrop (zlen l) c). destruct (Z_lt_le_dec (zlen m) (d + zlen c)) as [O|O]; [rewrite zreads_oob by lia; discriminate|]. pose proof (zlen_nonneg c) as C0. rewrite zreads_ok by lia. intros R. injection R as R.
    assert (Lv : d + zlen v <= zlen m). { unfold v. zl. destruct (Z_lt_le_dec (zlen c) (zlen l)); [rewrite zdrop_all by lia; cbn; lia|rewrite zlen_zdrop by lia; lia]. }
    pose proof (zlen_nonneg v). rewrite zreads_ok by lia. f_equal. rewrite zdrop_app2 by (rewrite zlen_ztake; lia). rewrite zlen_ztake by lia. replace (d - d) with 0 by lia. cbn [zdrop]. change (zdrop 0 (l ++ zdrop (d + zlen l) m)) with (l ++ zdrop (d + zlen l) m).
    rewrite ztake_app2 by (unfold v; zl; pose proof (zlen_nonneg (zdrop (zlen l) c)); lia). unfold v. rewrite zlen_app. f_equal. replace (zlen l + zlen (zdrop (zlen l) c) - zlen l) with (zlen (zdrop (zlen l) c)) by lia.
    destruct (Z_lt_le_dec (zlen c) (zlen l)); [rewrite (zdrop_all (zlen l) c) by lia; reflexivity|]. rewrite zlen_zdrop by lia. rewrite <- R at 2.
    rewrite <- (ztake_zdrop (zlen l) (zdrop d m)) at 1. rewrite ztake_app2 by (rewrite zlen_ztake; [lia|rewrite zlen_zdrop; lia]). rewrite zlen_ztake by (rewrite zlen_zdrop; lia). rewrite zdrop_app2 by (rewrite zlen_ztake; [lia|rewrite zlen_zdrop; lia]). rewrite zlen_ztake by (rewrite zlen_zdrop; lia).
    replace (zlen l - zlen l) with 0 by lia. change (zdrop 0 ?x) with x. rewrite zdrop_zdrop by lia. do 2 f_equal. lia.
Qed.
(** ** the pointers that are not null *)
Fixpoint somes {A} (l : list (option A)) : list A := match l with [] => [] | None :: l => somes l | Some x :: l => x :: somes l end.
Lemma somes_app {A} (a b : list (option A)) : somes (a ++ b) = somes a ++ somes b.
Proof. induction a as [|[x|] a IH]; cbn; congruence. Qed.
Lemma somes_in {A} (l : list (option A)) x : In x (somes l) <-> In (Some x) l.
Proof. induction l as [|[y|] l IH]; cbn; [tauto| |]; rewrite IH; intuition congruence. Qed.
Lemma somes_len {A} (l : list (option A)) : zlen (somes l) <= zlen l.
Proof. induction l as [|[x|] l IH]; cbn [somes]; zl; lia. Qed.
Lemma somes_full {A} (l : list (option A)) : (forall i, 0 <= i < zlen l -> znth None l i <> None) -> zlen (somes l) = zlen l.
Proof.
  induction l as [|x l IH]; intros H; [reflexivity|]. pose proof (zlen_nonneg l). assert (Hx : x <> None) by (apply (H 0); zl; lia). destruct x as [x|]; [|congruence]. cbn [somes]. rewrite !zlen_cons. rewrite IH; [reflexivity|].
  intros i I. specialize (H (i + 1) ltac:(zl; lia)). replace (znth None (Some x :: l) (i + 1)) with (znth None l i) in H; [exact H|]. unfold znth. replace (Z.to_nat (i + 1)) with (S (Z.to_nat i)) by lia. reflexivity.
Qed.
Lemma somes_none {A} (l : list (option A)) i : 0 <= i < zlen l -> znth None l i = None -> zlen (somes l) < zlen l.
Proof. intros I N. rewrite (zsplit1 None i l I), N, somes_app. cbn [somes]. zl. pose proof (somes_len (ztake i l)). pose proof (somes_len (zdrop (i + 1) l)). lia. Qed.
Lemma somes_empty {A} (l : list (option A)) : (forall i, 0 <= i < zlen l -> znth None l i = None) -> somes l = [].
Proof.
  induction l as [|x l IH]; intros H; [reflexivity|]. pose proof (zlen_nonneg l). assert (Hx : x = None) by (apply (H 0); zl; lia). subst x. cbn [somes]. apply IH.
  intros i I. specialize (H (i + 1) ltac:(zl; lia)). replace (znth None (None :: l) (i + 1)) with (znth None l i) in H; [exact H|]. unfold znth. replace (Z.to_nat (i + 1)) with (S (Z.to_nat i)) by lia. reflexivity.
Qed.
Lemma somes_inj {A} (l : list (option A)) i j d : NoDup (somes l) -> 0 <= i < zlen l -> 0 <= j < zlen l -> znth None l i = Some d -> znth None l j = Some d -> i = j.
Proof.
  intros N I J Hi Hj. destruct (Z.eq_dec i j) as [|D]; [auto|exfalso]. rewrite (zsplit1 None i l I), Hi, somes_app in N. cbn [somes] in N. apply NoDup_remove_2 in N. apply N. apply in_or_app.
  destruct (Z_lt_le_dec j i).
  - left. apply somes_in. rewrite <- Hj. rewrite <- (znth_ztake None i l j) by lia. apply znth_In. rewrite zlen_ztake; lia.
  - right. apply somes_in. rewrite <- Hj. replace j with (i + 1 + (j - i - 1)) by lia. rewrite <- znth_zdrop by lia. apply znth_In. rewrite zlen_zdrop; lia.
Qed.
Definition put {A} (l : list A) (i : Z) (x : A) : list A := ztake i l ++ x :: zdrop (i + 1) l.
Lemma put_len {A} (l : list A) i x : 0 <= i < zlen l -> zlen (put l i x) = zlen l.
Proof. intros I. unfold put. zl. rewrite zlen_ztake, zlen_zdrop by lia. lia. Qed.
Section Pool.
Variables (M E : Z).
Hypothesis HM : 0 < M < 2 ^ 64.
Hypothesis M8 : M mod 8 = 0.
Hypothesis HE : 0 < E.
Lemma inv_perm p l l' : Permutation l l' -> inv M E p l -> inv M E p l'.
Proof using All.
  intros P (A1 & A2 & A3 & A4 & A5 & A6 & A7 & A8). unfold inv. repeat split; auto; try lia.
  - eapply Permutation_NoDup; eauto.
  - intros H. apply A7. eapply Permutation_in; [apply Permutation_sym; exact P|exact H].
  - intros H. eapply Permutation_in; [exact P|]. now apply A7.
  - unfold zlen in *. rewrite <- (Permutation_length P). exact A8.
Qed.
Lemma free_dbg_ok p live d : inv M E p live -> In d live -> exists p', ssa_free_dbg M E p d = Ret (Some p') /\ inv M E p' (remove Z.eq_dec d live).
Proof using All.
  intros I Hd. pose proof (live_in M E p live d I Hd) as (k & K & ->). destruct (free_ok M E HM HE p live (k * E) I) as (p' & R & I' & _); [left; nia|]. exists p'. split; [|exact I'].
  destruct I as (Lu & _ & _ & _ & _ & _ & A7 & _). apply A7 in Hd as (k' & K' & EQ & B). apply Z.mul_reg_r in EQ; [|lia]. subst k'. destruct (size_M M HM _ Lu) as (S1 & _ & _).
  unfold ssa_free_dbg. unfold ssa_free in R. cbv zeta in *. assert (G : ssa_getidx E (k * E) = k) by (unfold ssa_getidx; rewrite Z.rem_mul, Z.quot_mul by lia; reflexivity). rewrite G in *.
  replace ((k =? -1) || (M <=? k)) with false in * by lia. replace (k <? 0) with false in * by lia. rewrite get_bt in * by lia. rewrite B in *. cbn [bind b2c] in *. change (1 =? 0) with false in *. cbv iota in *.
  destruct (BA_SET_FALSE (used p) k) as [u| |]; cbn [bind] in *; try discriminate. destruct (shrink _ u (top p)) as [t| |]; cbn [bind] in *; try discriminate. now injection R as <-.
Qed.
(** ** what the client's pointers stand for *)
Definition holds (m : list Z) (q : option Z) (s : option (list Z)) : Prop :=
  match q, s with
  | None, None => True
  | Some d, Some c => zlen c <= E /\ zreads m d (zlen c) = Ret c
  | _, _ => False
  end.
Record rep (w : heap) (st : list (option (list Z))) : Prop := {
  r_inv : inv M E (hp w) (somes (hptrs w));
  r_mem : zlen (hm w) = M * E;
  r_len : zlen (hptrs w) = zlen st;
  r_all : forall i, 0 <= i < zlen st -> holds (hm w) (znth None (hptrs w) i) (znth None st i)
}.
Lemma rep_count w st : rep w st -> zlen (somes (hptrs w)) = zlen (somes st).
Proof using All.
  intros [_ _ L H]. clear HM M8 HE. revert st L H. generalize (hm w). induction (hptrs w) as [|q l IH]; intros m st L H; destruct st as [|s st]; [reflexivity|exfalso; pose proof (zlen_nonneg st); revert L; zl; lia|exfalso; pose proof (zlen_nonneg l); revert L; zl; lia|]. rewrite !zlen_cons in L.
  pose proof (zlen_nonneg st) as P0. pose proof (H 0 ltac:(zl; lia)) as H0. cbn in H0. assert (IH' : zlen (somes l) = zlen (somes st)).
  { apply (IH m); [lia|]. intros i I. specialize (H (i + 1) ltac:(zl; lia)). unfold znth in *. replace (Z.to_nat (i + 1)) with (S (Z.to_nat i)) in H by lia. exact H. }
  destruct q, s; cbn [somes holds] in *; try tauto; zl; lia.
Qed.
Lemma rep_block w st i d : rep w st -> 0 <= i < zlen st -> znth None (hptrs w) i = Some d -> block M E d /\ 0 <= d /\ d + E <= M * E.
Proof using All.
  intros R I Hd. assert (B : block M E d). { apply (live_in M E (hp w) (somes (hptrs w)) d (r_inv _ _ R)). apply somes_in. rewrite <- Hd. apply znth_In. rewrite (r_len _ _ R). exact I. }
  split; [exact B|]. destruct B as (k & K & ->). nia.
Qed.
Lemma init_rep n : 0 <= n -> rep (heap_init M E n) (zrepeat None n).
Proof using All.
  intros N. constructor; cbn [heap_init hp hm hptrs].
  - rewrite somes_empty; [apply init_inv; lia|]. intros i I. rewrite zlen_zrepeat in I by lia. now rewrite znth_zrepeat.
  - apply zlen_zrepeat. nia.
  - now rewrite !zlen_zrepeat by lia.
  - intros i I. rewrite zlen_zrepeat in I by lia. rewrite !znth_zrepeat by lia. exact Logic.I.
Qed.
Lemma alloc_step w st i size : rep w st -> 0 <= i < zlen st -> znth None st i = None ->
  exists w', alloc_at M E w i size = Ret w' /\
    rep w' (put st i (if (size <=? E) && (zlen (somes st) <? M) then Some [] else None)).
Proof using All.
  intros R I N. pose proof (r_all _ _ R i I) as Hi. rewrite N in Hi. unfold holds in Hi. destruct (znth None (hptrs w) i) as [|] eqn:Np; [tauto|]. pose proof (r_len _ _ R) as L. pose proof (rep_count _ _ R) as C. unfold alloc_at.
  assert (Tk : forall q s p, inv M E p (somes (put (hptrs w) i q)) -> holds (hm w) q s -> exists w', Ret (mkH p (hm w) (put (hptrs w) i q)) = Ret w' /\ rep w' (put st i s)).
  { intros q s p J Hq. eexists. split; [reflexivity|]. constructor; cbn [hp hm hptrs]; [exact J|apply R|rewrite !put_len by lia; exact L|]. intros j Hj. rewrite put_len in Hj by lia. unfold put. rewrite !znth_upd by lia. destruct (Z.eqb_spec j i); [exact Hq|]. now apply (r_all _ _ R). }
  destruct (alloc_ok M E HM HE (hp w) (somes (hptrs w)) size (r_inv _ _ R)) as [(p' & d & A & Sz & B & Nin & J)|(A & Why)]; rewrite A; cbn [bind]; rewrite zwrite_ok by lia; cbn [bind].
  - assert (Cn : zlen (somes st) < M). { pose proof (live_le M E HM p' _ J). rewrite zlen_cons in *. lia. }
    replace ((size <=? E) && (zlen (somes st) <? M)) with true by lia. apply Tk.
    + unfold put. rewrite somes_app. cbn [somes]. eapply inv_perm; [apply Permutation_middle|]. rewrite (zsplit1 None i (hptrs w)) in J by lia. rewrite Np, somes_app in J. exact J.
    + split; [cbn; lia|]. destruct B as (k & K & ->). apply (zreads_ok (hm w) (k * E) 0); [nia|lia|rewrite (r_mem _ _ R); nia].
  - replace ((size <=? E) && (zlen (somes st) <? M)) with false by (destruct Why as [W|[W|(W & _)]]; lia). apply Tk; [|exact Logic.I]. unfold put. rewrite somes_app. cbn [somes]. pose proof (r_inv _ _ R) as J. rewrite (zsplit1 None i (hptrs w)) in J by lia. rewrite Np, somes_app in J. exact J.
Qed.
Lemma store_step w st i data : rep w st -> 0 <= i < zlen st -> zlen data <= E ->
  exists w', store_at w i data = Ret w' /\ rep w' (match znth None st i with None => st | Some c => put st i (Some (data ++ zdrop (zlen data) c)) end) /\ hp w' = hp w /\ hptrs w' = hptrs w.
Proof using All.
  intros R I Ld. pose proof (r_all _ _ R i I) as Hi. pose proof (r_len _ _ R) as L. unfold store_at. rewrite (zread_ok None) by lia. cbn [bind]. destruct (znth None (hptrs w) i) as [d|] eqn:Np, (znth None st i) as [c|] eqn:Ns; cbn [holds] in Hi; try tauto; [|eauto].
  destruct Hi as [Lc Rd]. destruct (rep_block w st i d R I Np) as ((k & K & Ek) & D0 & D1). destruct (writes_spec (hm w) d data D0 ltac:(rewrite (r_mem _ _ R); lia)) as (m' & -> & Lm & Oth & Own). cbn [bind]. eexists. split; [reflexivity|]. split; [|split; reflexivity].
  constructor; cbn [hp hm hptrs]; [apply R|rewrite Lm; apply R|rewrite put_len by lia; exact L|]. intros j Hj. rewrite put_len in Hj by lia. unfold put. rewrite znth_upd by lia. destruct (Z.eqb_spec j i) as [->|D].
  - rewrite Np. cbn [holds]. split; [|apply Own; exact Rd]. zl. pose proof (zlen_nonneg data). destruct (Z_lt_le_dec (zlen c) (zlen data)); [rewrite zdrop_all by lia; cbn; lia|rewrite zlen_zdrop by lia; lia].
  - pose proof (r_all _ _ R j Hj) as H. destruct (znth None (hptrs w) j) as [e|] eqn:Nj, (znth None st j) as [c'|]; cbn [holds] in *; try tauto. destruct H as [Lc' Re]. split; [exact Lc'|]. rewrite <- Re. apply Oth; [apply zlen_nonneg|].
    destruct (rep_block w st j e R Hj Nj) as ((k' & K' & Ek') & _). assert (Ne : k <> k'). { intros ->. apply D. apply (somes_inj (hptrs w) j i d); try lia; [apply (r_inv _ _ R)| |exact Np]. rewrite Nj. f_equal. lia. }
    pose proof (zlen_nonneg data). pose proof (zlen_nonneg c'). destruct (Z_lt_le_dec k k'); nia.
Qed.
Lemma free_step w st i : rep w st -> 0 <= i < zlen st -> exists w', free_at M E w i = Ret (Some w') /\ rep w' (put st i None).
Proof using All.
  intros R I. pose proof (r_all _ _ R i I) as Hi. pose proof (r_len _ _ R) as L. unfold free_at. rewrite (zread_ok None) by lia. cbn [bind]. destruct (znth None (hptrs w) i) as [d|] eqn:Np, (znth None st i) as [c|] eqn:Ns; cbn [holds] in Hi; try tauto.
  2: { exists w. split; [reflexivity|]. replace (put st i None) with st; [exact R|]. unfold put. rewrite (zsplit1 None i st I) at 1. now rewrite Ns. }
  destruct (free_dbg_ok (hp w) (somes (hptrs w)) d (r_inv _ _ R)) as (p' & -> & J). { apply somes_in. rewrite <- Np. apply znth_In. lia. }
  cbn [bind]. rewrite zwrite_ok by lia. cbn [bind]. eexists. split; [reflexivity|]. constructor; cbn [hp hm hptrs]; [|apply R|fold (put (hptrs w) i None); rewrite !put_len by lia; exact L|].
  - pose proof (r_inv _ _ R) as (_ & _ & _ & _ & _ & Nd & _ & _). rewrite (zsplit1 None i (hptrs w)) in J, Nd by lia. rewrite Np, somes_app in J, Nd. cbn [somes] in J, Nd. rewrite somes_app. cbn [somes].
    pose proof (NoDup_remove_2 _ _ _ Nd) as Nin. rewrite remove_app in J. cbn [remove] in J. destruct (Z.eq_dec d d); [|congruence]. rewrite !notin_remove in J by (intros X; apply Nin; apply in_or_app; tauto). exact J.
  - intros j Hj. rewrite put_len in Hj by lia. unfold put. rewrite !znth_upd by lia. destruct (Z.eqb_spec j i); [exact Logic.I|]. now apply (r_all _ _ R).
Qed.
End Pool.
