(** Proofs about the average number of records over all orders of a list of keys. *)
From Coq Require Import Permutation FinFun.
From Verif Require Import Base S_treap S_avg.
Ltac Zify.zify_post_hook ::= Z.div_mod_to_equations.

(** ---------- all orders ---------- *)
Lemma orders_exist_pre : forall n ks, length ks = n -> exists ls, forall l : list Z, In l ls <-> Permutation ks l.
Proof.
  induction n as [|n IH]; intros ks L.
  - destruct ks; [|discriminate]. exists [[]]. intros l. split; [intros [<-|[]]; constructor|]. intros H. apply Permutation_nil in H. subst. now left.
  - assert (D : forall xs, exists ls, forall l, In l ls <-> exists a p q t, ks = p ++ a :: q /\ In a xs /\ l = a :: t /\ Permutation (p ++ q) t).
    { induction xs as [|x xs (ls & IHx)]; [exists []; intros l; split; [intros []|intros (a & p & q & t & _ & [] & _)]|].
      destruct (in_dec Z.eq_dec x ks) as [Hx|Hx].
      - apply in_split in Hx as (p & q & E). destruct (IH (p ++ q)) as (l0 & H0); [rewrite E, app_length in L; cbn in L; rewrite app_length; lia|].
        exists (map (cons x) l0 ++ ls). intros l. rewrite in_app_iff, in_map_iff, IHx. split.
        + intros [(t & <- & Ht)|(a & p' & q' & t & E' & Ha & -> & HP)]; [|exists a, p', q', t; cbn; auto]. exists x, p, q, t. apply H0 in Ht. cbn. auto.
        + intros (a & p' & q' & t & E' & [<-|Ha] & -> & HP); [left|right; exists a, p', q', t; auto]. exists t. split; [reflexivity|]. apply H0. rewrite <- HP. apply (Permutation_app_inv p q p' q' x). now rewrite <- E, <- E'.
      - exists ls. intros l. rewrite IHx. split; intros (a & p & q & t & E & Ha & El & HP); exists a, p, q, t; [cbn; auto|]. destruct Ha as [<-|Ha]; [|auto]. exfalso. apply Hx. rewrite E. apply in_elt. }
    destruct (D ks) as (ls & H). exists ls. intros l. rewrite H. split.
    + intros (a & p & q & t & -> & _ & -> & HP). rewrite <- HP. symmetry. apply Permutation_middle.
    + intros HP. destruct l as [|a t]; [apply Permutation_sym, Permutation_nil in HP; subst; discriminate|].
      assert (Ha : In a ks) by (apply (Permutation_in a (Permutation_sym HP)); now left). apply in_split in Ha as (p & q & ->). exists a, p, q, t. split; [reflexivity|]. split; [apply in_elt|]. split; [reflexivity|].
      apply (Permutation_app_inv p q [] t a). exact HP.
Qed.
Lemma orders_exist ks : exists ls, all_orders ks ls.
Proof.
  destruct (orders_exist_pre _ ks eq_refl) as (ls & H). exists (nodup (list_eq_dec Z.eq_dec) ls). split; [apply NoDup_nodup|]. intros l. rewrite nodup_In. apply H.
Qed.

(** ---------- exchanging two places ---------- *)
Definition tr (a b x : nat) : nat := if (x =? a)%nat then b else if (x =? b)%nat then a else x.
Definition swap (a b : nat) (l : list Z) : list Z := map (fun x => nth (tr a b x) l 0) (seq 0 (length l)).
Lemma swap_len a b l : length (swap a b l) = length l.
Proof. unfold swap. now rewrite map_length, seq_length. Qed.
Lemma swap_nth a b l x : (x < length l)%nat -> nth x (swap a b l) 0 = nth (tr a b x) l 0.
Proof.
  intros H. unfold swap. rewrite (nth_indep _ 0 (nth (tr a b 0) l 0)) by (rewrite map_length, seq_length; exact H). rewrite (map_nth (fun x => nth (tr a b x) l 0)). now rewrite seq_nth by exact H.
Qed.
Lemma tr_lt a b n x : (a < n)%nat -> (b < n)%nat -> (x < n)%nat -> (tr a b x < n)%nat.
Proof. intros. unfold tr. destruct (x =? a)%nat; [assumption|]. destruct (x =? b)%nat; assumption. Qed.
Lemma tr_tr a b x : tr a b (tr a b x) = x.
Proof. unfold tr. destruct (Nat.eqb_spec x a) as [->|]; [rewrite Nat.eqb_refl; destruct (Nat.eqb_spec b a); congruence|]. destruct (Nat.eqb_spec x b) as [->|]; [now rewrite Nat.eqb_refl|]. destruct (Nat.eqb_spec x a); [congruence|]. destruct (Nat.eqb_spec x b); congruence. Qed.
Lemma swap_perm a b l : (a < length l)%nat -> (b < length l)%nat -> Permutation l (swap a b l).
Proof.
  intros Ha Hb. apply (Permutation_nth l (swap a b l) 0). split; [apply swap_len|]. exists (tr a b). split; [intros x Hx; now apply tr_lt|]. split.
  - intros x y Hx Hy E. apply (f_equal (tr a b)) in E. now rewrite !tr_tr in E.
  - intros x Hx. now apply swap_nth.
Qed.
Lemma swap_swap a b l : (a < length l)%nat -> (b < length l)%nat -> swap a b (swap a b l) = l.
Proof.
  intros Ha Hb. apply (nth_ext _ _ 0 0); [now rewrite !swap_len|]. intros x Hx. rewrite !swap_len in Hx. rewrite swap_nth by (now rewrite swap_len). rewrite swap_nth by now apply tr_lt. now rewrite tr_tr.
Qed.
Lemma filter_map_len {X Y} (f : Y -> bool) (g : X -> Y) l : length (filter f (map g l)) = length (filter (fun x => f (g x)) l).
Proof. induction l as [|x l IH]; [reflexivity|]. cbn [map filter]. destruct (f (g x)); cbn [length]; lia. Qed.
Lemma filter_perm {X} (f : X -> bool) l l' : Permutation l l' -> length (filter f l) = length (filter f l').
Proof. induction 1; cbn [filter]; try (destruct (f x)); try (destruct (f y)); cbn [length]; lia. Qed.
Definition top (a b k : nat) (l : list Z) : bool := forallb (fun j => (j =? k)%nat || (nth j l 0 <? nth k l 0)) (seq a (b + 1 - a)).
Lemma top_spec a b k l : top a b k l = true <-> forall j, (a <= j <= b)%nat -> j <> k -> nth j l 0 < nth k l 0.
Proof.
  unfold top. rewrite forallb_forall. split.
  - intros H j Hj Hk. specialize (H j ltac:(apply in_seq; lia)). apply orb_prop in H as [H|H]; [apply Nat.eqb_eq in H; congruence|lia].
  - intros H j Hj. apply in_seq in Hj. destruct (Nat.eqb_spec j k); [reflexivity|]. cbn. apply Z.ltb_lt. apply H; [lia|assumption].
Qed.
Lemma top_swap a b k l : (a <= k <= b)%nat -> (b < length l)%nat -> top a b b (swap k b l) = top a b k l.
Proof.
  intros Hk Hb. apply eq_true_iff_eq. rewrite !top_spec. split; intros H j Hj Hjk.
  - pose proof (swap_nth k b l) as E. specialize (H (tr k b j)). rewrite !E in H by (unfold tr; destruct (j =? k)%nat; destruct (j =? b)%nat; lia). rewrite tr_tr in H.
    replace (tr k b b) with k in H by (unfold tr; rewrite Nat.eqb_refl; now destruct (Nat.eqb_spec b k)). apply H.
    + unfold tr. destruct (j =? k)%nat; destruct (j =? b)%nat; lia.
    + unfold tr. destruct (Nat.eqb_spec j k); [congruence|]. destruct (Nat.eqb_spec j b); lia.
  - rewrite !swap_nth by lia. replace (tr k b b) with k by (unfold tr; rewrite Nat.eqb_refl; now destruct (Nat.eqb_spec b k)). apply H.
    + unfold tr. destruct (j =? k)%nat; destruct (j =? b)%nat; lia.
    + unfold tr. destruct (Nat.eqb_spec j k); [lia|]. destruct (Nat.eqb_spec j b); lia.
Qed.
Lemma top_exists l a m : NoDup l -> (a + m < length l)%nat -> exists k, (a <= k <= a + m)%nat /\ top a (a + m) k l = true.
Proof.
  intros N. induction m as [|m IH]; intros H.
  - exists a. split; [lia|]. apply top_spec. intros j Hj Hk. lia.
  - destruct IH as (k & Hk & T); [lia|]. rewrite top_spec in T. destruct (Z_lt_le_dec (nth k l 0) (nth (a + S m) l 0)) as [C|C].
    + exists (a + S m)%nat. split; [lia|]. apply top_spec. intros j Hj Hjm. destruct (Nat.eq_dec j k) as [->|]; [exact C|]. specialize (T j ltac:(lia) ltac:(assumption)). lia.
    + exists k. split; [lia|]. apply top_spec. intros j Hj Hjk. destruct (Nat.eq_dec j (a + S m)) as [->|]; [|apply T; lia].
      assert (nth (a + S m) l 0 <> nth k l 0); [|lia]. intros E. apply (NoDup_nth l 0) in E; auto; lia.
Qed.
Lemma top_one l a b : NoDup l -> (a <= b < length l)%nat -> length (filter (fun k => top a b k l) (seq a (b + 1 - a))) = 1%nat.
Proof.
  intros N H. destruct (top_exists l a (b - a) N ltac:(lia)) as (k & Hk & T). replace (a + (b - a))%nat with b in * by lia.
  assert (U : forall k', (a <= k' <= b)%nat -> top a b k' l = true -> k' = k).
  { intros k' Hk' T'. destruct (Nat.eq_dec k' k) as [|X]; [assumption|]. rewrite top_spec in T, T'. pose proof (T k' Hk' X). pose proof (T' k Hk ltac:(congruence)). lia. }
  assert (E : filter (fun k => top a b k l) (seq a (b + 1 - a)) = [k]); [|now rewrite E].
  assert (I : In k (seq a (b + 1 - a))) by (apply in_seq; lia). apply in_split in I as (u & v & E). pose proof (seq_NoDup (b + 1 - a) a) as ND. rewrite E in *.
  assert (Z0 : forall w, (forall x, In x w -> In x (u ++ k :: v) /\ x <> k) -> filter (fun k => top a b k l) w = []).
  { intros w Hw. induction w as [|x w IH]; [reflexivity|]. cbn [filter]. destruct (Hw x (or_introl eq_refl)) as [H1 H2]. destruct (top a b x l) eqn:T1; [|apply IH; intros y Hy; apply Hw; now right].
    exfalso. apply H2. apply U; [|exact T1]. rewrite <- E in H1. apply in_seq in H1. lia. }
  rewrite filter_app. cbn [filter]. rewrite T. apply NoDup_remove_2 in ND. rewrite in_app_iff in ND. rewrite (Z0 u), (Z0 v); [reflexivity| |]; intros x Hx; (split; [rewrite in_app_iff; cbn; auto|intros ->; tauto]).
Qed.
Lemma count_double {X Y} (f : X -> Y -> bool) (xs : list X) (ys : list Y) :
  zsum (map (fun x => Z.of_nat (length (filter (f x) ys))) xs) = zsum (map (fun y => Z.of_nat (length (filter (fun x => f x y) xs))) ys).
Proof.
  revert ys. induction xs as [|x xs IH]; intros ys.
  - cbn. induction ys as [|y ys IHy]; [reflexivity|]. exact IHy.
  - cbn [map zsum fold_right]. fold (zsum (map (fun x => Z.of_nat (length (filter (f x) ys))) xs)). rewrite IH. clear IH. induction ys as [|y ys IHy]; [reflexivity|].
    cbn [filter map zsum fold_right] in *. fold (zsum (map (fun y => Z.of_nat (length (filter (fun x => f x y) xs))) ys)) in *. destruct (f x y); cbn [length]; unfold zsum in *; lia.
Qed.
Lemma zsum_const {X} (c : Z) (xs : list X) (g : X -> Z) : (forall x, In x xs -> g x = c) -> zsum (map g xs) = Z.of_nat (length xs) * c.
Proof. induction xs as [|x xs IH]; intros H; [reflexivity|]. cbn [map zsum fold_right length]. fold (zsum (map g xs)). rewrite IH by (intros y Hy; apply H; now right). rewrite (H x) by now left. lia. Qed.
Lemma forallb_lt_trans m k y l : k <= m -> forallb (fun x => x <? y) (m :: k :: l) = forallb (fun x => x <? y) (m :: l).
Proof. intros H. cbn [forallb]. destruct (Z.ltb_spec m y), (Z.ltb_spec k y); try reflexivity; lia. Qed.
Lemma records_filter : forall l m, records m l = Z.of_nat (length (filter (fun j => forallb (fun y => y <? nth j l 0) (m :: firstn j l)) (seq 0 (length l)))).
Proof.
  induction l as [|k l IH]; intros m; [reflexivity|]. cbn [length seq]. rewrite <- seq_shift. cbn [filter].
  replace (forallb (fun y => y <? nth 0 (k :: l) 0) (m :: firstn 0 (k :: l))) with (m <? k) by (cbn; now rewrite andb_true_r).
  assert (E : forall m', (forall y, forallb (fun x => x <? y) [m; k] = (m' <? y)) -> length (filter (fun j => forallb (fun y => y <? nth j (k :: l) 0) (m :: firstn j (k :: l))) (map S (seq 0 (length l)))) = length (filter (fun j => forallb (fun y => y <? nth j l 0) (m' :: firstn j l)) (seq 0 (length l)))).
  { intros m' Hm. rewrite filter_map_len. f_equal. apply filter_ext. intros j. cbn [nth firstn]. cbn [forallb]. specialize (Hm (nth j l 0)). cbn [forallb] in Hm. rewrite andb_true_r in Hm. rewrite <- Hm. now rewrite andb_assoc. }
  change (records m (k :: l)) with (if m <? k then 1 + records k l else records m l). destruct (Z.ltb_spec m k) as [C|C].
  - cbn [length]. rewrite (IH k), (E k); [lia|]. intros y. cbn. destruct (Z.ltb_spec m y), (Z.ltb_spec k y); try reflexivity; lia.
  - rewrite (IH m), (E m); [lia|]. intros y. cbn. destruct (Z.ltb_spec m y), (Z.ltb_spec k y); try reflexivity; lia.
Qed.
Lemma nth_firstn' j k (l : list Z) : (j < k)%nat -> nth j (firstn k l) 0 = nth j l 0.
Proof. revert k l. induction j as [|j IH]; intros [|k] [|x l] H; try lia; try reflexivity. cbn. apply IH. lia. Qed.
Lemma nth_skipn' j k (l : list Z) : nth j (skipn k l) 0 = nth (k + j) l 0.
Proof. revert l. induction k as [|k IH]; intros [|x l]; try reflexivity; [now destruct j|]. cbn. apply IH. Qed.
Lemma forallb_nth (f : Z -> bool) l : forallb f l = true <-> forall j, (j < length l)%nat -> f (nth j l 0) = true.
Proof.
  rewrite forallb_forall. split; [intros H j Hj; apply H; now apply nth_In|]. intros H x Hx. apply (In_nth _ _ 0) in Hx as (j & Hj & <-). now apply H.
Qed.
Lemma zsum_map_ext {X} (f g : X -> Z) l : (forall x, In x l -> f x = g x) -> zsum (map f l) = zsum (map g l).
Proof. intros H. f_equal. now apply map_ext_in. Qed.
Lemma zsum_add {X} (f g : X -> Z) l : zsum (map (fun x => f x + g x) l) = zsum (map f l) + zsum (map g l).
Proof. induction l as [|x l IH]; [reflexivity|]. cbn [map zsum fold_right]. unfold zsum in *. lia. Qed.
Lemma zsum_app a b : zsum (a ++ b) = zsum a + zsum b.
Proof. induction a as [|x a IH]; [reflexivity|]. cbn [app zsum fold_right]. unfold zsum in *. lia. Qed.
Lemma harm_sum N : forall m, zsum (map (fun d => N / Z.of_nat (d + 2)) (seq 0 m)) = harmonic N (S m) - N.
Proof.
  induction m as [|m IH]; [cbn; rewrite Z.div_1_r; lia|]. rewrite seq_S, map_app, zsum_app, IH. cbn [map zsum fold_right Nat.add]. change (harmonic N (S (S m))) with (harmonic N (S m) + N / Z.of_nat (S (S m))). replace (m + 2)%nat with (S (S m)) by lia. lia.
Qed.
Section Av.
Variable ks : list Z.
Hypothesis Hks : NoDup ks.
Variable P : list (list Z).
Hypothesis HP : all_orders ks P.
Notation n := (length ks).
Lemma P_len l : In l P -> length l = n.
Proof. intros H. apply HP in H. symmetry. now apply Permutation_length. Qed.
Lemma P_nodup l : In l P -> NoDup l.
Proof. intros H. apply HP in H. now apply (Permutation_NoDup H). Qed.
Lemma swap_in a b l : (a < n)%nat -> (b < n)%nat -> In l P -> In (swap a b l) P.
Proof. intros Ha Hb H. pose proof (P_len l H) as L. apply HP. apply HP in H. rewrite H. apply swap_perm; lia. Qed.
Lemma swap_all a b : (a < n)%nat -> (b < n)%nat -> Permutation (map (swap a b) P) P.
Proof.
  intros Ha Hb. apply NoDup_Permutation.
  - assert (X : forall Q, incl Q P -> NoDup Q -> NoDup (map (swap a b) Q)).
    { induction Q as [|l Q IH]; intros I N; [constructor|]. inversion N as [|? ? N1 N2]; subst. cbn [map]. constructor; [|apply IH; auto; intros x Hx; apply I; now right].
      intros H. apply in_map_iff in H as (l' & E & Hl'). apply (f_equal (swap a b)) in E. rewrite !swap_swap in E by (rewrite P_len by (apply I; cbn; auto); assumption). subst l'. contradiction. }
    apply X; [apply incl_refl|apply HP].
  - apply HP.
  - intros l. rewrite in_map_iff. split; [intros (l' & <- & H); now apply swap_in|]. intros H. exists (swap a b l). split; [apply swap_swap; rewrite P_len by exact H; assumption|now apply swap_in].
Qed.
Definition count (f : list Z -> bool) : Z := Z.of_nat (length (filter f P)).
Lemma count_swap a b f : (a < n)%nat -> (b < n)%nat -> count (fun l => f (swap a b l)) = count f.
Proof. intros Ha Hb. unfold count. f_equal. rewrite <- filter_map_len. apply filter_perm. now apply swap_all. Qed.
Lemma count_ext f g : (forall l, In l P -> f l = g l) -> count f = count g.
Proof. intros H. unfold count. f_equal. f_equal. now apply filter_ext_in. Qed.

(** place k holds the greatest of the places a, ..., b *)
Lemma count_same a b k : (a <= k <= b)%nat -> (b < n)%nat -> count (top a b k) = count (top a b b).
Proof.
  intros Hk Hb. rewrite <- (count_swap k b (top a b b)) by lia. apply count_ext. intros l Hl. symmetry. apply top_swap; [assumption|now rewrite P_len].
Qed.
(** double counting *)
Lemma count_top a b k : (a <= k <= b)%nat -> (b < n)%nat -> Z.of_nat (b + 1 - a) * count (top a b k) = zlen P.
Proof.
  intros Hk Hb. rewrite (count_same a b k Hk Hb). 
  pose proof (count_double (fun k l => top a b k l) (seq a (b + 1 - a)) P) as D.
  rewrite (zsum_const (count (top a b b))) in D by (intros x Hx; apply in_seq in Hx; apply (count_same a b x); lia).
  rewrite (zsum_const 1) in D. 2:{ intros l Hl. rewrite top_one; [reflexivity|now apply P_nodup|rewrite P_len by exact Hl; lia]. }
  rewrite seq_length in D. unfold zlen. lia.
Qed.
Lemma count_top_div a b k d : (a <= k <= b)%nat -> (b < n)%nat -> d = Z.of_nat (b + 1 - a) -> count (top a b k) = zlen P / d.
Proof. intros Hk Hb ->. rewrite <- (count_top a b k Hk Hb). rewrite Z.mul_comm, Z.div_mul by lia. reflexivity. Qed.
Lemma divides d : 1 <= d <= zlen ks -> (d | zlen P).
Proof. intros H. exists (count (top 0 (Z.to_nat d - 1) 0)). rewrite <- (count_top 0 (Z.to_nat d - 1) 0) by (unfold zlen in H; lia). replace (Z.of_nat (Z.to_nat d - 1 + 1 - 0)) with d by lia. lia. Qed.

(** ---------- records ---------- *)
Definition right_recs (i : nat) (l : list Z) : Z := records (nth i l 0) (skipn (S i) l).
Definition left_recs (i : nat) (l : list Z) : Z := records (nth i l 0) (rev (firstn i l)).
Lemma right_filter i l : (i < length l)%nat -> right_recs i l = Z.of_nat (length (filter (fun d => top i (i + 1 + d) (i + 1 + d) l) (seq 0 (length l - 1 - i)))).
Proof.
  intros Hi. unfold right_recs. rewrite records_filter. rewrite skipn_length. replace (length l - S i)%nat with (length l - 1 - i)%nat by lia. do 2 f_equal. apply filter_ext_in. intros j Hj. apply in_seq in Hj.
  apply eq_true_iff_eq. rewrite top_spec, forallb_nth. cbn [length]. rewrite firstn_length, skipn_length. replace (Nat.min j (length l - S i)) with j by lia. rewrite nth_skipn'. replace (S i + j)%nat with (i + 1 + j)%nat by lia. split.
  - intros H x Hx Hx2. destruct (Nat.eq_dec x i) as [->|].
    + specialize (H 0%nat ltac:(lia)). cbn [nth] in H. lia.
    + specialize (H (S (x - S i)) ltac:(lia)). cbn [nth] in H. rewrite nth_firstn', nth_skipn' in H by lia. replace (S i + (x - S i))%nat with x in H by lia. lia.
  - intros H [|x] Hx; cbn [nth]; apply Z.ltb_lt; [apply H; lia|]. rewrite nth_firstn', nth_skipn' by lia. apply H; lia.
Qed.
Lemma left_filter i l : (i < length l)%nat -> left_recs i l = Z.of_nat (length (filter (fun d => top (i - 1 - d) i (i - 1 - d) l) (seq 0 i))).
Proof.
  intros Hi. unfold left_recs. rewrite records_filter. rewrite rev_length, firstn_length. replace (Nat.min i (length l)) with i by lia. do 2 f_equal. apply filter_ext_in. intros j Hj. apply in_seq in Hj.
  assert (R : forall x, (x < i)%nat -> nth x (rev (firstn i l)) 0 = nth (i - 1 - x) l 0).
  { intros x Hx. rewrite rev_nth by (rewrite firstn_length; lia). rewrite firstn_length. replace (Nat.min i (length l)) with i by lia. rewrite nth_firstn' by lia. f_equal. lia. }
  apply eq_true_iff_eq. rewrite top_spec, forallb_nth. cbn [length]. rewrite firstn_length, rev_length, firstn_length. replace (Nat.min j (Nat.min i (length l))) with j by lia. rewrite R by lia. split.
  - intros H x Hx Hx2. destruct (Nat.eq_dec x i) as [->|].
    + specialize (H 0%nat ltac:(lia)). cbn [nth] in H. lia.
    + specialize (H (S (i - 1 - x)) ltac:(lia)). cbn [nth] in H. rewrite nth_firstn', R in H by lia. replace (i - 1 - (i - 1 - x))%nat with x in H by lia. lia.
  - intros H [|x] Hx; cbn [nth]; apply Z.ltb_lt; [apply H; lia|]. rewrite nth_firstn', R by lia. apply H; lia.
Qed.
Lemma sum_right i : (i < n)%nat -> zsum (map (right_recs i) P) = harmonic (zlen P) (n - i) - zlen P.
Proof.
  intros Hi. rewrite (zsum_map_ext _ (fun l => Z.of_nat (length (filter (fun d => top i (i + 1 + d) (i + 1 + d) l) (seq 0 (n - 1 - i)))))).
  2:{ intros l Hl. rewrite <- (P_len l Hl). apply right_filter. now rewrite (P_len l Hl). }
  rewrite (count_double (fun l d => top i (i + 1 + d) (i + 1 + d) l)). replace (n - i)%nat with (S (n - 1 - i)) by lia. rewrite <- harm_sum. apply zsum_map_ext. intros d Hd. apply in_seq in Hd. apply (count_top_div i (i + 1 + d) (i + 1 + d)); lia.
Qed.
Lemma sum_left i : (i < n)%nat -> zsum (map (left_recs i) P) = harmonic (zlen P) (i + 1) - zlen P.
Proof.
  intros Hi. rewrite (zsum_map_ext _ (fun l => Z.of_nat (length (filter (fun d => top (i - 1 - d) i (i - 1 - d) l) (seq 0 i))))).
  2:{ intros l Hl. apply left_filter. now rewrite (P_len l Hl). }
  rewrite (count_double (fun l d => top (i - 1 - d) i (i - 1 - d) l)). replace (i + 1)%nat with (S i) by lia. rewrite <- harm_sum. apply zsum_map_ext. intros d Hd. apply in_seq in Hd. apply (count_top_div (i - 1 - d) i (i - 1 - d)); lia.
Qed.
Lemma sum_cost i : (i < n)%nat -> zsum (map (fun l => 1 + right_recs i l + left_recs i l) P) = harmonic (zlen P) (i + 1) + harmonic (zlen P) (n - i) - zlen P.
Proof.
  intros Hi. rewrite zsum_add, zsum_add, sum_right, sum_left by exact Hi. rewrite (zsum_const 1) by auto. unfold zlen. lia.
Qed.
End Av.

(** ---------- the logarithm ---------- *)
Lemma harm_mono N : 0 <= N -> forall m k, harmonic N m <= harmonic N (m + k).
Proof. intros HN m k. induction k as [|k IH]; [rewrite Nat.add_0_r; lia|]. rewrite Nat.add_succ_r. cbn [harmonic]. pose proof (Z.div_pos N (Z.of_nat (S (m + k))) HN ltac:(lia)). lia. Qed.
Lemma harm_block N a : 0 <= N -> (1 <= a)%nat -> forall k, (k <= a)%nat -> harmonic N (a - 1 + k) <= harmonic N (a - 1) + Z.of_nat k * (N / Z.of_nat a).
Proof.
  intros HN Ha. induction k as [|k IH]; intros Hk; [rewrite Nat.add_0_r; lia|]. rewrite Nat.add_succ_r. cbn [harmonic]. specialize (IH ltac:(lia)).
  pose proof (Z.div_le_compat_l N (Z.of_nat a) (Z.of_nat (S (a - 1 + k))) HN ltac:(lia)). lia.
Qed.
Lemma harm_pow N : 0 <= N -> forall k, harmonic N (2 ^ k - 1) <= N * Z.of_nat k.
Proof.
  intros HN. induction k as [|k IH]; [cbn; lia|]. pose proof (Nat.pow_nonzero 2 k ltac:(lia)). pose proof (harm_block N (2 ^ k) HN ltac:(lia) (2 ^ k)%nat ltac:(lia)) as B.
  replace (2 ^ S k - 1)%nat with (2 ^ k - 1 + 2 ^ k)%nat by (cbn [Nat.pow]; lia). pose proof (Z.mul_div_le N (Z.of_nat (2 ^ k)) ltac:(lia)). lia.
Qed.
Lemma harm_log N m : 0 <= N -> (1 <= m)%nat -> harmonic N m <= N * (1 + Z.log2 (Z.of_nat m)).
Proof.
  intros HN Hm. set (k := Z.to_nat (1 + Z.log2 (Z.of_nat m))). pose proof (Z.log2_nonneg (Z.of_nat m)) as Hl. pose proof (Z.log2_spec (Z.of_nat m) ltac:(lia)) as [_ H].
  assert (Hk : (m <= 2 ^ k - 1)%nat). { apply Nat2Z.inj_le. pose proof (Nat.pow_nonzero 2 k ltac:(lia)). rewrite Nat2Z.inj_sub by lia. rewrite Nat2Z.inj_pow. unfold k. rewrite Z2Nat.id by lia. rewrite Z.add_comm. rewrite <- Z.add_1_r in H. change (Z.of_nat 2) with 2. change (Z.of_nat 1) with 1. lia. }
  pose proof (harm_mono N HN m (2 ^ k - 1 - m)) as M. replace (m + (2 ^ k - 1 - m))%nat with (2 ^ k - 1)%nat in M by lia. pose proof (harm_pow N HN k). unfold k in *. rewrite Z2Nat.id in * by lia. lia.
Qed.
