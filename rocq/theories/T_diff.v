(** C49: getpathdiff for every pair of paths that normalise, and exactly when its answer is wrong. *)
From Verif Require Import Base Cstr M_stringptr M_filelib S_stringptr S_filelib D_stringptr P_stringptr P_filelib.

(** ---------- spec ---------- *)
(** what the caller should get for the normalised paths r1, r2: the rest of r2 where r2 is r1 or lies below it
    (a path lies below another where a '/' follows), else nothing; below the root lies everything, and there the whole
    of r2 is the rest *)
Definition rest_of (r1 r2 s : list Z) : Prop :=
  if list_eq_dec Z.eq_dec r1 [47] then s = r2 else r2 = r1 ++ s /\ (s = [] \/ exists u, s = 47 :: u).
(** what it does get: the paths are compared as bytes, and where the lengths agree not at all *)
Definition gets (r1 r2 : list Z) : option (list Z) :=
  let b := if list_eq_dec Z.eq_dec r1 [47] then [] else r1 in
  if zlen r2 =? zlen b then Some []
  else if list_eq_dec Z.eq_dec (ztake (zlen b) r2) b then Some (zdrop (zlen b) r2) else None.

(** ---------- proofs ---------- *)
Lemma base_one t r : normal t = Some r -> base r = if list_eq_dec Z.eq_dec r [47] then [] else r.
Proof.
  intros H. destruct (normal_canon _ _ H) as (q & -> & _). unfold base. destruct q as [|c q]; [reflexivity|].
  replace (_ =? 1) with false by (zl; zpos; lia). now destruct (list_eq_dec _ _ _).
Qed.

Section T.
Variables (fuel : nat) (buf1 buf2 pre1 t1 post1 pre2 t2 post2 r1 r2 : list Z).
Hypothesis N1 : nz t1. Hypothesis B1 : bytes t1. Hypothesis L1 : zlen buf1 = 4096. Hypothesis S1 : zlen t1 < 4096. Hypothesis F1 : (length t1 < fuel)%nat.
Hypothesis N2 : nz t2. Hypothesis B2 : bytes t2. Hypothesis L2 : zlen buf2 = 4096. Hypothesis S2 : zlen t2 < 4096. Hypothesis F2 : (length t2 < fuel)%nat.
Hypothesis H1 : normal t1 = Some r1. Hypothesis H2 : normal t2 = Some r2.
Let run := getpathdiff fuel buf1 buf2 (mkSp (pre1 ++ t1 ++ 0 :: post1) (zlen pre1) (zlen t1)) (mkSp (pre2 ++ t2 ++ 0 :: post2) (zlen pre2) (zlen t2)).

(** the work buffer is untouched where the answer is -1; else it has the rest, its terminator and what was there *)
Theorem c49_getpathdiff_exact u w :
  match gets r1 r2 with
  | Some s => zlen u = zlen s + 1 -> exists q1 q2, run (u ++ w) = Ret (zlen s, q1, q2, s ++ [0] ++ w)
  | None => exists q1 q2, run (u ++ w) = Ret (-1, q1, q2, u ++ w)
  end.
Proof.
  destruct (diff_ok fuel buf1 buf2 pre1 t1 post1 pre2 t2 post2 (u ++ w)) as (q1 & q2 & A & B & C & _); auto; try lia.
  unfold norm_or in *. rewrite H1, H2 in *. rewrite (base_one _ _ H1) in *. unfold gets. set (b := if list_eq_dec _ _ _ then _ else _) in *. pose proof (zlen_nonneg b). clearbody b.
  destruct (Z.eqb_spec (zlen r2) (zlen b)) as [G|G].
  - intros Hu. change (zlen (@nil Z)) with 0 in *. destruct u as [|x [|]]; [cbn in Hu; lia| |revert Hu; zl; zpos; lia]. exists q1, q2. apply (C x w); auto.
  - destruct (list_eq_dec _ _ _) as [D|D].
    + intros Hu. exists q1, q2. apply (A _ u w); auto. rewrite <- D at 1. symmetry. apply ztake_zdrop.
    + apply B. destruct (Z_lt_le_dec (zlen r2) (zlen b)); [now left|right]. split; [lia|auto].
Qed.

(** the answer is right exactly where it is not one of two: equally long and different, or the first path a byte prefix
    of the second with no '/' behind it *)
Theorem c49_getpathdiff_right_iff :
  (forall s, gets r1 r2 = Some s <-> rest_of r1 r2 s) <->
  ~ (r1 <> [47] /\ ((zlen r1 = zlen r2 /\ r1 <> r2) \/ exists c s, r2 = r1 ++ c :: s /\ c <> 47)).
Proof.
  unfold gets, rest_of. destruct (normal_canon _ _ H2) as (q & Eq & _). destruct (list_eq_dec Z.eq_dec r1 [47]) as [E|E].
  - split; [intros _ [X _]; auto|]. intros _ s. change (zlen (@nil Z)) with 0. replace (zlen r2 =? 0) with false by (rewrite Eq; zl; zpos; lia).
    change (ztake 0 r2) with (@nil Z). change (zdrop 0 r2) with r2. destruct (list_eq_dec _ _ _); [|congruence]. split; intros; subst; congruence.
  - split.
    + intros A [_ [[HL HN]|(c & s & Hs & Hc)]].
      * specialize (A []). rewrite HL, Z.eqb_refl in A. destruct (proj1 A eq_refl) as [X _]. rewrite app_nil_r in X. congruence.
      * specialize (A (c :: s)). rewrite Hs in A. replace (zlen (r1 ++ c :: s) =? zlen r1) with false in A by (zl; zpos; lia).
        rewrite ztake_app_exact, zdrop_app_exact in A by auto. destruct (list_eq_dec _ _ _) in A; [|congruence]. destruct (proj1 A eq_refl) as [_ [X|(v & X)]]; congruence.
    + intros A s. destruct (Z.eqb_spec (zlen r2) (zlen r1)) as [G|G].
      * assert (r1 = r2) as <-. { destruct (list_eq_dec Z.eq_dec r1 r2) as [e|e]; auto. exfalso. apply A. auto. }
        split; [intros X; injection X as <-; rewrite app_nil_r; auto|]. intros [X _]. f_equal. apply (app_inv_head r1). now rewrite app_nil_r.
      * split.
        -- destruct (list_eq_dec _ _ _) as [D|D]; [|discriminate]. intros X. injection X as <-.
           assert (Es : r2 = r1 ++ zdrop (zlen r1) r2) by (rewrite <- D at 1; symmetry; apply ztake_zdrop). split; [exact Es|].
           destruct (zdrop (zlen r1) r2) as [|c v]; [now left|right]. exists v. f_equal. destruct (Z.eq_dec c 47); auto. exfalso. apply A. eauto 8.
        -- intros [X _]. rewrite X, ztake_app_exact, zdrop_app_exact by auto. now destruct (list_eq_dec _ _ _).
Qed.
End T.
Print Assumptions c49_getpathdiff_exact.
Print Assumptions c49_getpathdiff_right_iff.

(** right, wrong (equally long), wrong (no separator), right (none) *)
Example c49_gets_ex :
  gets [47;97] [47;97;47;98] = Some [47;98] /\ gets [47;97] [47;98] = Some [] /\ gets [47;97] [47;97;98] = Some [98] /\ gets [47;97] [47;98;99] = None /\ gets [47] [47;98] = Some [47;98].
Proof. repeat split; vm_compute; reflexivity. Qed.
