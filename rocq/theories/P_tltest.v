(** An sblist and a tlist that get the same calls. *)
From Verif Require Import Base M_sblist S_sblist D_sblist P_sblist.
From Verif Require Import M_tlist S_tlist D_tlist P_tlist M_tltest.

Definition LIM : Z := 2 ^ 33.
(** both lists hold xs; at: the addresses of the tlist's nodes, in order *)
Record agree (isize bl : Z) (w : world) (xs : list (list Z)) (ys : list (Z * list Z)) : Prop := {
  a_inv : Inv LIM (wl w) xs;
  a_isz : isz (wl w) = isize;
  a_bits : bits (wl w) = bl;
  a_tl : tgood (wt w) ys;
  a_same : map snd ys = xs
}.
Lemma zlen_map {A B} (f : A -> B) l : zlen (map f l) = zlen l.
Proof. unfold zlen. now rewrite map_length. Qed.
Lemma map_split {A B} (f : A -> B) l p q : map f l = p ++ q -> exists a b, l = a ++ b /\ map f a = p /\ map f b = q.
Proof. intros H. destruct (map_eq_app f l p q H) as (a & b & -> & <- & <-). eauto. Qed.
Lemma app_len_inj {A} (p : list A) : forall p' q q', p ++ q = p' ++ q' -> zlen p = zlen p' -> p = p' /\ q = q'.
Proof.
  induction p as [|x p IH]; intros [|y p'] q q' E L; rewrite ?zlen_nil, ?zlen_cons in L; try (pose proof (zlen_nonneg p); lia); try (pose proof (zlen_nonneg p'); lia).
  - auto.
  - injection E as -> E. destruct (IH p' q q' E ltac:(lia)) as [-> ->]. auto.
Qed.
Section Step.
Variables isize bl : Z.
Hypothesis Hb : bl < 2 ^ 32.
Hypothesis Hi : LIM * isize < 2 ^ 64.
Lemma agree_sizes w xs ys : agree isize bl w xs ys -> sz w = zlen xs /\ tsz w = zlen xs /\ zlen xs < 2 ^ 32.
Proof.
  intros [I _ _ G S]. pose proof (tgood_size _ _ G) as T. destruct G as (_ & _ & _ & L). unfold sz, tsz, tlist_getsize. rewrite T. rewrite <- S, zlen_map in *. split; [|auto]. rewrite (i_cnt _ _ _ I). apply zlen_map.
Qed.
Lemma step_ins j m a w p q ys v : agree isize bl w (p ++ q) ys -> zlen (p ++ q) < 2 ^ 32 - 1 -> zlen v = isize ->
  exists l t ya yb, sblist_insert (Some j) (wl w) v (zlen p) = Ret (1, l) /\ tlist_insert (Some a) (wt w) (zlen p) v = (1, t) /\ ys = ya ++ yb /\ map snd yb = q /\ agree isize bl (mkW l t m) (p ++ v :: q) (ya ++ (a, v) :: yb).
Proof using Hb Hi.
  intros [I Ei Eb G S] L V. destruct (insert_ok LIM (Some j) (wl w) p q v (zlen p) I) as (r & l & E & [(_ & _ & X)|(-> & I' & Ei' & Eb')]); try (rewrite ?Ei; first [exact V | reflexivity | unfold LIM in *; lia]); [discriminate X|].
  rewrite E. destruct (map_split snd ys p q S) as (ya & yb & -> & Sa & Sb). assert (Lp : zlen p = zlen ya) by (rewrite <- Sa; apply zlen_map). pose proof (zlen_nonneg p). pose proof (zlen_nonneg q).
  assert (Ly : zlen (ya ++ yb) = zlen (p ++ q)) by (rewrite <- S; symmetry; apply zlen_map). rewrite zlen_app in L, Ly.
  destruct (insert_good (Some a) (wt w) (ya ++ yb) (zlen ya) v G) as (r & t & ys' & Et & Sp & G'); [rewrite Ly; lia|lia|].
  assert (X : r = 1 /\ ys' = ya ++ (a, v) :: yb).
  { inversion Sp as [p0 q0 a0 v0 E0| |? ? ? ? Bad| | | | | | | ]; subst.
    - match goal with X : p0 ++ q0 = _, Y : zlen p0 = _ |- _ => destruct (app_len_inj p0 ya q0 yb X Y) as [-> ->]; auto end.
    - rewrite zlen_app in Bad. pose proof (zlen_nonneg yb). lia. }
  destruct X as [-> ->]. exists l, t, ya, yb. split; [reflexivity|]. rewrite Lp. split; [exact Et|]. split; [reflexivity|]. split; [exact Sb|].
  constructor; cbn [wl wt]; auto; [congruence|congruence|]. rewrite map_app. cbn [map snd]. congruence.
Qed.
Lemma step_add j m a w xs ys v : agree isize bl w xs ys -> zlen xs < 2 ^ 32 - 1 -> zlen v = isize ->
  exists l t, sblist_add (Some j) (wl w) v = Ret (1, l) /\ tlist_append (Some a) (wt w) v = (1, t) /\ agree isize bl (mkW l t m) (xs ++ [v]) (ys ++ [(a, v)]).
Proof using Hb Hi.
  intros A L V. destruct (agree_sizes _ _ _ A) as (_ & T & _). unfold tsz, tlist_getsize in T. assert (A0 : agree isize bl w (xs ++ []) ys) by now rewrite app_nil_r.
  destruct (step_ins j m a w xs [] ys v A0 ltac:(rewrite app_nil_r; exact L) V) as (l0 & t & ya & yb & _ & Et & -> & Sb & A').
  destruct A as [I Ei Eb G S]. destruct (add_ok LIM (Some j) (wl w) xs v I) as (r & l & E & [(_ & _ & X)|(-> & I' & Ei' & Eb')]); try (rewrite ?Ei; first [exact V | unfold LIM in *; lia]); [discriminate X|].
  exists l, t. split; [exact E|]. unfold tlist_append. rewrite T. split; [exact Et|]. destruct A' as [_ _ _ G' S']. cbn [wt] in G'. apply map_eq_nil in Sb. subst yb.
  rewrite app_nil_r in *. constructor; cbn [wl wt]; auto; congruence.
Qed.
Lemma step_del m w p x q ys : agree isize bl w (p ++ x :: q) ys ->
  exists l t ya y yb, sblist_delete (wl w) (zlen p) = Ret l /\ tlist_delete (wt w) (zlen p) = Ret (1, [fst y], t) /\ ys = ya ++ y :: yb /\ agree isize bl (mkW l t m) (p ++ q) (ya ++ yb).
Proof using Hb Hi.
  intros A. destruct (agree_sizes _ _ _ A) as (_ & _ & L). destruct A as [I Ei Eb G S]. rewrite <- Ei in Hi. destruct (delete_ok LIM (wl w) p x q I Hi) as (l & E & I' & Ei' & Eb' & _).
  destruct (map_split snd ys p (x :: q) S) as (ya & yb & -> & Sa & Sb). destruct yb as [|y yb]; [discriminate Sb|]. cbn [map] in Sb. injection Sb as Sx Sq. assert (Lp : zlen p = zlen ya) by (rewrite <- Sa; apply zlen_map).
  pose proof (zlen_nonneg p). pose proof (zlen_nonneg q). rewrite zlen_app, zlen_cons in L.
  destruct (delete_good (wt w) (ya ++ y :: yb) (zlen p) false G ltac:(lia)) as [(B & _)|(p0 & a & v & q0 & t & E0 & Lz & Et & G')].
  - rewrite zlen_app, zlen_cons in B. pose proof (zlen_nonneg yb). lia.
  - destruct (app_len_inj ya p0 (y :: yb) ((a, v) :: q0) E0 ltac:(lia)) as [<- Ey]. injection Ey as -> ->. exists l, t, ya, (a, v), q0. split; [exact E|]. split; [exact Et|]. split; [reflexivity|].
    constructor; cbn [wl wt]; auto; [congruence|congruence|]. rewrite map_app. congruence.
Qed.
Lemma step_del_none m w xs ys pos : agree isize bl w xs ys -> zlen xs <= pos < 2 ^ 64 ->
  exists l t, sblist_delete (wl w) pos = Ret l /\ tlist_delete (wt w) pos = Ret (0, [], t) /\ agree isize bl (mkW l t m) xs ys.
Proof.
  intros A L. pose proof (zlen_nonneg xs). destruct A as [I Ei Eb G S]. assert (Ly : zlen ys = zlen xs) by (rewrite <- S; symmetry; apply zlen_map). exists (wl w), (wt w).
  split; [unfold sblist_delete; rewrite (i_cnt _ _ _ I); replace (pos <? zlen xs) with false by lia; now rewrite andb_false_r|]. split; [|now constructor].
  destruct (delete_good (wt w) ys pos false G ltac:(lia)) as [(_ & E)|(p0 & a & v & q0 & t & E0 & Lz & _)]; [exact E|]. rewrite E0, zlen_app, zlen_cons in Ly. pose proof (zlen_nonneg q0). lia.
Qed.
Lemma compare_ok w xs ys n : forall i, agree isize bl w xs ys -> 0 <= i -> i + Z.of_nat n <= zlen xs -> compare_loop n i w = Ret (Some tt).
Proof using Hi.
  induction n as [|n IH]; intros i A I L; [reflexivity|]. cbn [compare_loop]. pose proof A as [J Ei Eb G S]. destruct (inv_reads LIM (wl w) xs J ltac:(rewrite Ei; exact Hi)) as (_ & R & _).
  destruct (R i ltac:(lia)) as (off & -> & E). rewrite (get_good (wt w) ys i (0, []) G) by (replace (zlen ys) with (zlen xs) by (rewrite <- S; apply zlen_map); lia). cbn [snd]. rewrite E. cbn [bind].
  replace (znth [] xs i) with (snd (znth (0, []) ys i)) by (rewrite <- S; symmetry; rewrite (znth_map snd (0, []) []); [reflexivity|rewrite <- S, zlen_map in L; lia]).
  unfold assert. destruct (list_eq_dec Z.eq_dec _ _) as [_|X]; [|congruence]. apply IH; auto; lia.
Qed.
End Step.
