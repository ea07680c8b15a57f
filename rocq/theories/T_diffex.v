(** C82 for every two files: exactly what examples/diff.c reports. *)
From Verif Require Import Base M_ex S_ex P_ex.

(** what becomes of the runs of differing bytes.  m: the common length.  A run with room for as many
    bytes again is reported as it is.  Otherwise the report comes one place too early and has half of
    what is left of the file, and what is left of the run is taken for another run *)
Inductive reported (m : Z) : list (Z * Z) -> list (Z * Z) -> Prop :=
| RPnil : reported m [] []
| RPfit o n rs out : o + 2 * n <= m -> reported m rs out -> reported m ((o, n) :: rs) ((o, n) :: out)
| RPcut o n k rs out : m < o + 2 * n -> k = (m - o) / 2 + 1 -> reported m (if k =? n then rs else (o + k, n - k) :: rs) out -> reported m ((o, n) :: rs) (((o - 1) mod 2 ^ 64, k) :: out).

Section Diff.
Variables f1 f2 : list Z.
Variable mn : Z.
Hypothesis L1 : mn <= zlen f1.
Hypothesis L2 : mn <= zlen f2.
Inductive pruns : Z -> list (Z * Z) -> Prop :=
| PRend : pruns mn []
| PReq p rs : p < mn -> znth 0 f1 p = znth 0 f2 p -> pruns (p + 1) rs -> pruns p rs
| PRne p n rs : 1 <= n -> p + n <= mn -> (forall i, p <= i < p + n -> znth 0 f1 i <> znth 0 f2 i) -> (p + n = mn \/ p + n < mn /\ znth 0 f1 (p + n) = znth 0 f2 (p + n)) -> pruns (p + n) rs -> pruns p ((p, n) :: rs).
Lemma pruns_le p rs : pruns p rs -> p <= mn.
Proof. induction 1; lia. Qed.
Lemma pruns_sk p rs : pruns p rs -> p < mn -> znth 0 f1 p = znth 0 f2 p -> pruns (p + 1) rs.
Proof. intros R P E. inversion R as [|p' rs' A B C|p' n rs' A B C D F]; subst; [lia|exact C|]. exfalso. apply (C p); [lia|exact E]. Qed.
Lemma inner_cut o k fuel : forall p l, p = o + l -> 0 <= o -> 0 <= l < k -> mn <= o + 2 * k - 1 -> o + 2 * k - 3 < mn -> k - l <= Z.of_nat fuel ->
  (forall q, o <= q < o + k -> znth 0 f1 q <> znth 0 f2 q) -> diff_inner fuel f1 f2 mn p l = Ret (o + k - 1, k).
Proof using L1 L2.
  induction fuel as [|fuel IH]; intros p l P O Hl M1 M2 F N; [lia|]. cbn [diff_inner]. destruct (Z.ltb_spec (p + (l + 1)) mn) as [H|H].
  - rewrite !(zread_ok 0) by lia. cbn [bind]. destruct (Z.eqb_spec (znth 0 f1 (p + 1)) (znth 0 f2 (p + 1))) as [E|_]; [exfalso; apply (N (p + 1)); [lia|exact E]|]. apply IH; auto; lia.
  - do 2 f_equal; lia.
Qed.
Lemma loop_exact fuel : forall p rs d, pruns p rs -> 0 <= p -> mn < 2 ^ 64 -> mn - p < Z.of_nat fuel ->
  exists out, reported mn rs out /\ diff_loop fuel f1 f2 mn p d = Ret (map (fun x => Diff (fst x) (snd x)) out ++ [Total (d + zlen out) mn]).
Proof using L1 L2.
  induction fuel as [|fuel IH]; intros p rs d R P M F; [pose proof (pruns_le _ _ R); lia|]. cbn [diff_loop]. inversion R as [|p' rs' A B C|p' n rs' A B C D R']; subst.
  - exists []. split; [constructor|]. replace (mn <? mn) with false by lia. cbn. do 3 f_equal. change (zlen []) with 0. lia.
  - replace (p <? mn) with true by lia. rewrite !(zread_ok 0) by lia. cbn [bind]. rewrite B, Z.eqb_refl. apply IH; auto; lia.
  - replace (p <? mn) with true by lia. rewrite !(zread_ok 0) by lia. cbn [bind]. destruct (Z.eqb_spec (znth 0 f1 p) (znth 0 f2 p)) as [E|_]; [exfalso; apply (C p); [lia|exact E]|].
    destruct (Z_le_gt_dec (p + 2 * n) mn) as [Hf|Hf].
    + destruct D as [D|[D1 D2]]; [lia|]. rewrite (inner_run f1 f2 mn L1 L2 p (p + n)); auto; try lia; [|unfold zlen in *; lia]. cbn [bind].
      destruct (IH (p + n + 1) rs' (d + 1)) as (out & RP & ->); try lia. { now apply pruns_sk. }
      exists ((p, n) :: out). split; [now constructor|]. cbn [bind map fst snd app]. replace (p + n - (p + n - p)) with p by lia. replace (p + n - p) with n by lia. rewrite u64_id by lia. rewrite zlen_cons. replace (d + (1 + zlen out)) with (d + 1 + zlen out) by lia. replace (d + (zlen out + 1)) with (d + 1 + zlen out) by lia. reflexivity.
    + set (k := (mn - p) / 2 + 1). assert (K : mn - p < 2 * k /\ 2 * k <= mn - p + 2). { unfold k. pose proof (Z.div_mod (mn - p) 2 ltac:(lia)). pose proof (Z.mod_pos_bound (mn - p) 2 ltac:(lia)). lia. }
      rewrite (inner_cut p k); try lia; [|unfold zlen in *; lia|intros q Hq; apply C; lia]. cbn [bind].
      destruct (IH (p + k - 1 + 1) (if k =? n then rs' else (p + k, n - k) :: rs') (d + 1)) as (out & RP & ->); try lia.
      { replace (p + k - 1 + 1) with (p + k) by lia. destruct (Z.eqb_spec k n) as [->|]; [exact R'|]. apply PRne; try lia; replace (p + k + (n - k)) with (p + n) by lia; auto. intros i Hi. apply C. lia. }
      exists (((p - 1) mod 2 ^ 64, k) :: out). split; [apply (RPcut mn p n k); [lia|reflexivity|exact RP]|]. cbn [bind map fst snd app]. replace (p + k - 1 - k) with (p - 1) by lia. unfold u64 at 1. rewrite zlen_cons. replace (d + (1 + zlen out)) with (d + 1 + zlen out) by lia. replace (d + (zlen out + 1)) with (d + 1 + zlen out) by lia. reflexivity.
Qed.
End Diff.
Lemma runs_pos o a b r : diff_runs o a b r -> forall pa pb ta tb, zlen pa = o -> zlen pb = o -> pruns (pa ++ a ++ ta) (pb ++ b ++ tb) (o + zlen a) o r.
Proof.
  induction 1 as [o|o x a b r R IH|o u v a b r Nu F E R IH]; intros pa pb ta tb La Lb.
  - change (zlen []) with 0. rewrite Z.add_0_r. constructor.
  - pose proof (zlen_nonneg a). rewrite zlen_cons. apply PReq; [lia| |].
    + cbn [app]. rewrite <- La at 1. rewrite znth_app_exact. rewrite <- Lb. now rewrite znth_app_exact.
    + specialize (IH (pa ++ [x]) (pb ++ [x]) ta tb). rewrite <- !app_assoc in IH. cbn [app] in IH |- *. replace (o + (1 + zlen a)) with (o + 1 + zlen a) by lia. replace (o + (zlen a + 1)) with (o + 1 + zlen a) by lia. apply IH; rewrite zlen_app; change (zlen [x]) with 1; lia.
  - pose proof (zlen_nonneg a). assert (Luv : zlen u = zlen v) by (apply F2_length in F; unfold zlen; lia). assert (1 <= zlen u) by (destruct u; [contradiction|rewrite zlen_cons; pose proof (zlen_nonneg u); lia]). rewrite zlen_app. apply PRne; [lia|lia| | |].
    + intros i Hi. rewrite <- !app_assoc. rewrite (znth_app2 0 pa), (znth_app2 0 pb) by lia. rewrite (znth_app1 0 u), (znth_app1 0 v) by lia. rewrite La, Lb. generalize (i - o), (ltac:(lia) : 0 <= i - o < zlen u). clear - F. induction F as [|x y u v N F IH]; intros q Hq; [change (zlen (@nil Z)) with 0 in Hq; lia|]. destruct (Z.eq_dec q 0) as [->|]; [exact N|]. rewrite zlen_cons in Hq. change (x :: u) with ([x] ++ u). change (y :: v) with ([y] ++ v). rewrite (znth_app2 0 [x]), (znth_app2 0 [y]) by (cbn; lia). apply IH. cbn. lia.
    + destruct E as [[-> ->]|(x & a' & b' & -> & ->)]; [left; change (zlen []) with 0; lia|]. right. pose proof (zlen_nonneg a'). rewrite zlen_cons in *. split; [lia|]. rewrite <- !app_assoc. rewrite (znth_app2 0 pa), (znth_app2 0 pb) by lia. rewrite (znth_app2 0 u), (znth_app2 0 v) by lia. rewrite La, Lb. replace (o + zlen u - o - zlen u) with 0 by lia. replace (o + zlen u - o - zlen v) with 0 by lia. reflexivity.
    + specialize (IH (pa ++ u) (pb ++ v) ta tb). rewrite <- !app_assoc in IH |- *. replace (o + (zlen u + zlen a)) with (o + zlen u + zlen a) by lia. apply IH; rewrite zlen_app; lia.
Qed.
Lemma diff_reports a b ta tb rs : diff_runs 0 a b rs -> ta = [] \/ tb = [] -> zlen a < 2 ^ 64 ->
  exists out, reported (zlen a) rs out /\
  diff (a ++ ta) (b ++ tb) = Ret ((if zlen ta =? zlen tb then [] else [Sizes (zlen (a ++ ta)) (zlen (b ++ tb))]) ++ map (fun x => Diff (fst x) (snd x)) out ++ [Total (zlen out) (zlen a)]).
Proof.
  intros R T L. pose proof (diff_runs_len _ _ _ _ R) as Lab. pose proof (zlen_nonneg ta). pose proof (zlen_nonneg tb). pose proof (runs_pos 0 a b rs R [] [] ta tb eq_refl eq_refl) as PR. cbn [app] in PR. change (0 + zlen a) with (zlen a) in PR.
  destruct (loop_exact (a ++ ta) (b ++ tb) (zlen a) ltac:(rewrite zlen_app; lia) ltac:(rewrite zlen_app; lia) (S (length (a ++ ta))) 0 rs 0 PR ltac:(lia) L ltac:(rewrite app_length; unfold zlen; lia)) as (out & RP & X).
  change (0 + zlen out) with (zlen out) in X. exists out. split; [exact RP|]. unfold diff. rewrite !zlen_app, Lab. destruct (Z.eqb_spec (zlen tb) (zlen ta)) as [E|E].
  - replace (zlen b + zlen tb =? zlen b + zlen ta) with true by lia. replace (zlen ta =? zlen tb) with true by lia. assert (ta = [] /\ tb = []) as [-> ->]. { destruct T as [-> | ->]; split; auto; apply zlen_0; change (zlen []) with 0 in E; lia. } change (zlen []) with 0. rewrite Z.add_0_r. rewrite <- Lab. exact X.
  - replace (zlen b + zlen tb =? zlen b + zlen ta) with false by lia. replace (zlen ta =? zlen tb) with false by lia. cbv zeta.
    replace (if zlen b + zlen tb <? zlen b + zlen ta then zlen b + zlen tb else zlen b + zlen ta) with (zlen a).
    + rewrite X. cbn [bind]. now rewrite Lab.
    + destruct (Z.ltb_spec (zlen b + zlen tb) (zlen b + zlen ta)); destruct T as [-> | ->]; change (zlen []) with 0 in *; lia.
Qed.
(** the report on any two files *)
Theorem c82_exact : forall a b ta tb rs, diff_runs 0 a b rs -> ta = [] \/ tb = [] -> zlen a < 2 ^ 64 ->
  exists out, reported (zlen a) rs out /\
  diff (a ++ ta) (b ++ tb) = Ret ((if zlen ta =? zlen tb then [] else [Sizes (zlen (a ++ ta)) (zlen (b ++ tb))]) ++ map (fun x => Diff (fst x) (snd x)) out ++ [Total (zlen out) (zlen a)]).
Proof. exact diff_reports. Qed.
Print Assumptions c82_exact.
(** what is reported is a function of the runs *)
Theorem c82_reported_fun : forall m rs o1 o2, reported m rs o1 -> reported m rs o2 -> o1 = o2.
Proof.
  intros m rs o1 o2 R. revert o2. induction R as [|o n rs out F R IH|o n k rs out F K R IH]; intros o2 R2; inversion R2; subst; try lia; try reflexivity; f_equal; now apply IH.
Qed.
Print Assumptions c82_reported_fun.
(** the runs themselves are reported iff each has room for as many bytes again *)
Theorem c82_runs_iff : forall a b ta tb rs, diff_runs 0 a b rs -> ta = [] \/ tb = [] -> zlen a < 2 ^ 64 ->
  (diff (a ++ ta) (b ++ tb) = Ret ((if zlen ta =? zlen tb then [] else [Sizes (zlen (a ++ ta)) (zlen (b ++ tb))]) ++ map (fun x => Diff (fst x) (snd x)) rs ++ [Total (zlen rs) (zlen a)])
   <-> Forall (fun x => fst x + 2 * snd x <= zlen a) rs).
Proof.
  intros a b ta tb rs R T L. destruct (diff_reports a b ta tb rs R T L) as (out & RP & ->). split.
  - intros E. injection E as E. apply app_inv_head in E.
    assert (EO : out = rs).
    { revert E. generalize (zlen out), (zlen rs). clear. revert out. induction rs as [|[o n] rs IH]; intros [|[o' n'] out] x y E; cbn in E; try discriminate; [reflexivity|]. injection E as -> -> E. f_equal. eapply IH, E. }
    subst out. clear - RP L. assert (H : forall rs out, reported (zlen a) rs out -> out = rs -> Forall (fun x => fst x + 2 * snd x <= zlen a) rs); [|eapply H; [exact RP|reflexivity]]. clear RP rs.
    intros rs out RP. induction RP as [|o n rs out F RP IH|o n k rs out F K RP IH]; intros E; [constructor|injection E as E; constructor; [exact F|auto]|]. exfalso. injection E as E _ _. assert (V : (o - 1) mod 2 ^ 64 = (o - 1) - 2 ^ 64 * ((o - 1) / 2 ^ 64)) by (rewrite Z.mod_eq by lia; reflexivity). lia.
  - intros F. assert (H : out = rs); [|now rewrite H]. clear - F RP. induction RP as [|o n rs out Hf RP IH|o n k rs out Hf K RP IH]; [reflexivity| |]; inversion F as [|? ? F1 F2]; subst; [f_equal; now apply IH|cbn [fst snd] in F1; lia].
Qed.
Print Assumptions c82_runs_iff.
(** ten different bytes become three reports *)
Example c82_exact_example : diff_runs 0 (repeat 1 10) (repeat 2 10) [(0, 10)] /\ reported 10 [(0, 10)] [(2 ^ 64 - 1, 6); (5, 3); (8, 1)] /\
  diff (repeat 1 10) (repeat 2 10) = Ret [Diff (2 ^ 64 - 1) 6; Diff 5 3; Diff 8 1; Total 3 10].
Proof.
  split; [|split; [|vm_compute; reflexivity]].
  - apply (runs_ne 0 (repeat 1 10) (repeat 2 10) [] [] []); [discriminate|repeat constructor; lia|left; auto|constructor].
  - apply (RPcut 10 0 10 6); [lia|reflexivity|]. apply (RPcut 10 6 4 3); [lia|reflexivity|]. apply (RPcut 10 9 1 1); [lia|reflexivity|]. constructor.
Qed.
