(** Proofs about examples/codedup.c: the report. *)
From Verif Require Import Base Cstr M_spfile M_tglist S_tglist D_tglist P_tglist D_tgsort P_tgsort M_codedup S_codedup P_codedup.
From Coq Require Import Permutation.

Lemma FOP_imp {A B} (R : A -> A -> Prop) (R' : B -> B -> Prop) (Q : A -> B -> Prop) (l : list A) (l' : list B) : ForallOrdPairs R l -> Forall2 Q l l' ->
  (forall a b a' b', In a l -> In a' l -> Q a b -> Q a' b' -> R a a' -> R' b b') -> ForallOrdPairs R' l'.
Proof.
  intros F F2. revert F. induction F2 as [|a b l l' q F2 IH]; intros F H; [constructor|]. inversion F as [|? ? Fa Fl]; subst. constructor.
  - assert (I0 : forall x, In x l -> In x (a :: l)) by (intros; now right). clear IH F. revert Fa I0. induction F2 as [|c d l l' q' F2 IH2]; intros Fa I0; [constructor|]. inversion Fa; subst. constructor.
    + eapply H; [left; reflexivity|apply I0; left; reflexivity|exact q|exact q'|assumption].
    + apply IH2; [intros a1 b1 a1' b1' J J'; apply H; [destruct J as [->|J]; [now left|right; now right]|destruct J' as [->|J']; [now left|right; now right]]|now inversion Fl|assumption|intros; now right].
  - apply IH; [exact Fl|]. intros a1 b1 a1' b1' J J'. apply H; now right.
Qed.
Lemma FOP_and {A} (R R' : A -> A -> Prop) l : ForallOrdPairs R l -> ForallOrdPairs R' l -> ForallOrdPairs (fun a b => R a b /\ R' a b) l.
Proof. induction 1 as [|a l F O IH]; intros H; inversion H; subst; constructor; auto. rewrite Forall_forall in *. auto. Qed.
Lemma FOP_NoDup {A B} (f : A -> B) l : NoDup (map f l) -> ForallOrdPairs (fun a b => f a <> f b) l.
Proof. induction l as [|a l IH]; cbn [map]; intros H; inversion H; subst; constructor; auto. apply Forall_forall. intros x I E. apply H2. rewrite E. now apply in_map. Qed.
Lemma tsorted_FOP {A} (cmp : A -> A -> Z) l : tsorted cmp l -> ForallOrdPairs (fun a b => cmp a b <= 0) l.
Proof. induction 1; constructor; auto. Qed.

Lemma nodup_app_l {A} (a b : list A) : NoDup (a ++ b) -> NoDup a.
Proof. induction a as [|x a IH]; cbn [app]; intros H; inversion H; subst; constructor; auto. intros I. apply H2. apply in_or_app; now left. Qed.

Section R.
Variables (L : list (Z * list Z)) (bl : Z) (junk : Z -> Z * Z).
Notation lc := (zlen L).
Notation ls := (map snd L).
Hypothesis HL : lc < 2 ^ 31.
Hypothesis Hbl : 1 <= bl < 2 ^ 31.

Lemma dfind_rel m pm k : mrel m pm -> In k (map fst m) -> exists d xs, dfind k m = Some d /\ In (k, xs) pm /\ trep 8 d xs.
Proof.
  induction 1 as [|[a d] [b xs] m pm [E T] M IH]; cbn [map fst snd dfind] in *; [intros []|]. subst b. intros I. destruct (k =? a) eqn:K.
  - assert (k = a) by lia. subst. exists d, xs. split; [reflexivity|]. split; [now left|exact T].
  - destruct I as [->|I]; [lia|]. destruct (IH I) as (d' & xs' & E & J & T'). exists d', xs'. split; [exact E|]. split; [now right|exact T'].
Qed.
Lemma longest_ok d xs : trep 8 d xs -> forall q p lg, xs = p ++ q -> longest_loop (length q) d (zlen p) lg = Ret (fold_left (fun lg x => if lg <? fst x then fst x else lg) q lg).
Proof.
  intros T. induction q as [|x q IH]; intros p lg E; cbn [length longest_loop fold_left]; [reflexivity|]. rewrite (get_znth 8 d xs (zlen p) x T) by (subst xs; rewrite zlen_app, zlen_cons; pose proof (zlen_nonneg p); pose proof (zlen_nonneg q); lia). cbn [bind]. rewrite E, znth_app_exact. specialize (IH (p ++ [x])). rewrite zlen_app in IH. change (zlen [x]) with 1 in IH. apply IH. rewrite E, <- app_assoc. reflexivity.
Qed.
Lemma fold_max x xs : tsorted sortitem_cmp (x :: xs) -> 0 < fst x -> fold_left (fun lg y => if lg <? fst y then fst y else lg) (x :: xs) 0 = fst x.
Proof.
  intros S Hx. inversion S as [|? ? F S']; subst. cbn [fold_left]. replace (0 <? fst x) with true by lia.
  assert (G : Forall (fun y => fst y <= fst x) xs). { eapply Forall_impl; [|exact F]. intros [a b]; unfold sortitem_cmp; cbn [fst snd]. destruct (a - fst x =? 0) eqn:?; lia. }
  clear -G. induction G as [|y xs H G IH]; cbn [fold_left]; [reflexivity|]. now replace (fst x <? fst y) with false by lia.
Qed.
Definition top_of (pm : list (Z * list (Z * Z))) (k : Z) (y : Z * Z) : Prop := snd y = k /\ exists x xs, In (k, x :: xs) pm /\ fst y = fst x.
Lemma collect_ok m pm i : mrel m pm -> pinv L bl i pm -> forall order si ys, trep 8 si ys -> tsorted sortitem_cmp ys -> zlen ys + zlen order < 2 ^ 32 -> Forall (fun k => In k (map fst m)) order ->
  exists si' ys' zs, collect junk order m si = Ret si' /\ trep 8 si' ys' /\ tsorted sortitem_cmp ys' /\ Forall2 (top_of pm) order zs /\ Permutation ys' (zs ++ ys).
Proof using Hbl.
  intros M (Pe & _). induction order as [|k order IH]; intros si ys T S Ln F; cbn [collect].
  - exists si, ys, []. split; [reflexivity|]. split; [exact T|]. split; [exact S|]. split; [constructor|reflexivity].
  - inversion F as [|? ? Ik Fo]; subst. destruct (dfind_rel m pm k M Ik) as (d & xs & -> & Ip & Td). rewrite Forall_forall in Pe. destruct (Pe _ Ip) as (_ & (Ne & So & Fo' & _) & _). cbn [fst snd] in *.
    destruct xs as [|x xs]; [contradiction|]. rewrite (r_cnt _ _ _ Td). unfold zlen at 1. rewrite Nat2Z.id. pose proof (longest_ok d (x :: xs) Td (x :: xs) [] 0 eq_refl) as E1. change (zlen []) with 0 in E1. rewrite E1. inversion Fo' as [|? ? [Hx _] _]; subst. rewrite fold_max by (auto; lia). cbn [bind].
    rewrite (get_znth 8 d _ 0 x Td) by (rewrite zlen_cons; pose proof (zlen_nonneg xs); lia). cbn [bind]. rewrite znth_cons0, Z.eqb_refl. cbn [negb]. rewrite zlen_cons in Ln. pose proof (zlen_nonneg order).
    destruct (P_tgsort.insert_sorted_ok 8 sortitem_cmp ltac:(lia) (Some junk) si ys (fst x, k) T ltac:(lia)) as (r & l' & -> & [(_ & _ & N)|(p & q & -> & -> & T' & S')]); [discriminate N|]. cbn [bind].
    destruct (IH l' (p ++ (fst x, k) :: q) T' (S' cmp_total S)) as (si' & ys' & zs & -> & T2 & S2 & F2 & P2); [rewrite zlen_app, zlen_cons in *; lia|exact Fo|]. exists si', ys', ((fst x, k) :: zs). split; [reflexivity|]. split; [exact T2|]. split; [exact S2|]. split.
    + constructor; [|exact F2]. split; [reflexivity|]. exists x, xs. split; [exact Ip|reflexivity].
    + rewrite P2. cbn [app]. rewrite <- Permutation_middle. rewrite <- Permutation_middle. reflexivity.
Qed.
Lemma cnt_ok d xs len : trep 8 d xs -> forall q p c, xs = p ++ q -> exists a b, q = a ++ b /\ cnt_loop (length q) d len (zlen p) c = Ret (c + zlen a) /\ Forall (fun x => len <= fst x) a /\ match b with [] => True | x :: _ => fst x < len end.
Proof.
  intros T. induction q as [|x q IH]; intros p c E; cbn [length cnt_loop]; [exists [], []; repeat split; [f_equal; cbn; lia|constructor]|]. rewrite (get_znth 8 d xs (zlen p) x T) by (subst xs; rewrite zlen_app, zlen_cons; pose proof (zlen_nonneg p); pose proof (zlen_nonneg q); lia). cbn [bind]. rewrite E, znth_app_exact. destruct (fst x <? len) eqn:K.
  - exists [], (x :: q). repeat split; [f_equal; cbn; lia|constructor|lia].
  - destruct (IH (p ++ [x]) (c + 1)) as (a & b & Eq & R & Fa & Hb); [rewrite E, <- app_assoc; reflexivity|]. rewrite zlen_app in R. change (zlen [x]) with 1 in R. exists (x :: a), b. split; [now rewrite Eq|]. rewrite R. split; [f_equal; rewrite zlen_cons; lia|]. split; [constructor; [lia|exact Fa]|exact Hb].
Qed.
Lemma others_ok d xs start : trep 8 d xs -> forall q p r, xs = p ++ q ++ r -> others_loop (length q) d start (zlen p) = Ret (map (fun x => start + snd x) q).
Proof.
  intros T. induction q as [|x q IH]; intros p r E; cbn [length others_loop map]; [reflexivity|]. cbn [app] in E. rewrite (get_znth 8 d xs (zlen p) x T) by (subst xs; rewrite zlen_app, zlen_cons, zlen_app; pose proof (zlen_nonneg p); pose proof (zlen_nonneg q); pose proof (zlen_nonneg r); lia). cbn [bind]. rewrite E, znth_app_exact. specialize (IH (p ++ [x]) r). rewrite zlen_app in IH. change (zlen [x]) with 1 in IH. rewrite IH by (rewrite E, <- app_assoc; reflexivity). reflexivity.
Qed.
Lemma text_ok : forall q p r, L = p ++ q ++ r -> text_loop L (length q) (zlen p) = Ret (map snd q).
Proof.
  induction q as [|x q IH]; intros p r E; cbn [length text_loop map]; [reflexivity|]. cbn [app] in E. rewrite E at 1. rewrite zread_app_exact. cbn [bind]. specialize (IH (p ++ [x]) r). rewrite zlen_app in IH. change (zlen [x]) with 1 in IH. rewrite IH by (rewrite E, <- app_assoc; reflexivity). reflexivity.
Qed.
Lemma text_slice a n : 0 <= a -> 0 <= n -> a + n <= lc -> text_loop L (Z.to_nat n) a = Ret (slice a n ls).
Proof.
  intros Ha Hn H. destruct (zsplit a L) as (p & q & E & Lp); [lia|]. assert (Lq : n <= zlen q) by (rewrite E, zlen_app in H; lia). destruct (zsplit n q) as (q1 & q2 & -> & Lq1); [lia|]. subst a n. unfold zlen at 1. rewrite Nat2Z.id. rewrite (text_ok q1 p q2 E). f_equal.
  unfold slice, zlen. rewrite !Nat2Z.id, E, !map_app, skipn_app, firstn_app. rewrite skipn_all2 by (rewrite map_length; lia). rewrite map_length, Nat.sub_diag. cbn [skipn app]. rewrite firstn_nil. cbn [app length]. rewrite Nat.sub_0_r, firstn_app, map_length, Nat.sub_diag. cbn [firstn]. rewrite app_nil_r. symmetry. apply firstn_all2. rewrite map_length; lia.
Qed.
Definition drec (pm : list (Z * list (Z * Z))) (start : Z) (y : Z * Z) (d : dup) : Prop :=
  dn d = fst y /\ dat d = start + snd y /\ dcnt d = zlen (dothers d) /\
  good_block ls bl (dn d) (dat d - start) (map (fun b => b - start) (dothers d)) (dtext d).
Lemma print_ok m pm i start si ys : mrel m pm -> pinv L bl i pm -> trep 8 si ys -> NoDup (map fst pm) -> Forall (fun y => top_of pm (snd y) y) ys ->
  forall q p, ys = p ++ q -> exists ds, print_loop L (length q) m start si (zlen p) = Ret ds /\ Forall2 (drec pm start) q ds.
Proof using All.
  intros M (Pe & _) T ND Ft. induction q as [|y q IH]; intros p E; cbn [length print_loop]; [exists []; split; [reflexivity|constructor]|].
  rewrite (get_znth 8 si ys (zlen p) y T) by (subst ys; rewrite zlen_app, zlen_cons; pose proof (zlen_nonneg p); pose proof (zlen_nonneg q); lia). cbn [bind]. rewrite E, znth_app_exact.
  rewrite E in Ft. apply Forall_app in Ft as [Fp Fq]. inversion Fq as [|? ? (_ & x & xs & Ix & Ey) _]; subst.
  assert (Ik : In (snd y) (map fst m)). { clear -M Ix. induction M as [|e p m pm [Ee _] M IH]; [destruct Ix|]. destruct Ix as [->|I]; [left; exact Ee|right; auto]. }
  destruct (dfind_rel m pm (snd y) M Ik) as (d & xs' & -> & Ip & Td).
  assert (xs' = x :: xs). { clear -ND Ix Ip. induction pm as [|[k zs] pm IH]; [destruct Ix|]. cbn [map fst] in ND. inversion ND as [|? ? N1 N2]; subst. destruct Ix as [E1|I1], Ip as [E2|I2]; [congruence| | |auto]; exfalso; apply N1; [injection E1 as -> _|injection E2 as -> _]; apply (in_map fst) in I2 || apply (in_map fst) in I1; assumption. } subst xs'.
  rewrite Forall_forall in Pe. destruct (Pe _ Ip) as (_ & (Ne & So & Fo & Nd) & _). cbn [fst snd] in *.
  rewrite (r_cnt _ _ _ Td). unfold zlen at 1. rewrite Nat2Z.id. destruct (cnt_ok d (x :: xs) (fst y) Td (x :: xs) [] 0 eq_refl) as (a & b & Eab & R & Fa & Hb). change (zlen []) with 0 in R. rewrite R. cbn [bind]. rewrite Z.add_0_l.
  pose proof (others_ok d (x :: xs) start Td a [] b Eab) as O. change (zlen []) with 0 in O. unfold zlen at 1. rewrite Nat2Z.id, O. cbn [bind]. inversion Fo as [|? ? (Hx & Dx1 & Dx2 & Dx3 & Dx4) _]; subst. rewrite zlen_map in Dx3.
  rewrite text_slice by lia. cbn [bind]. destruct (IH (p ++ [y])) as (ds & R' & F2); [rewrite <- app_assoc; reflexivity|]. rewrite zlen_app in R'. change (zlen [y]) with 1 in R'. rewrite R'. cbn [bind]. eexists; split; [reflexivity|]. constructor; [|exact F2].
  unfold drec. cbn [dn dat dcnt dothers dtext]. split; [reflexivity|]. split; [reflexivity|]. split; [now rewrite zlen_map|]. replace (start + snd y - start) with (snd y) by lia. rewrite map_map. rewrite (map_ext (fun z : Z * Z => start + snd z - start) snd) by (intros; lia).
  (* all entries of a have length fst x *)
  assert (Fe : Forall (fun z => fst z = fst x) a). { inversion So as [|? ? Sx _]; subst. rewrite Forall_forall in Fa, Sx |- *. intros z Iz. pose proof (Fa z Iz). assert (In z (x :: xs)) as [<-|Iz'] by (rewrite Eab; apply in_or_app; now left); [reflexivity|]. specialize (Sx z Iz'). unfold sortitem_cmp in Sx. destruct (fst z - fst x =? 0) eqn:?; lia. }
  split; [lia|]. split. { destruct a; [|discriminate]. cbn [app] in Eab. subst b. lia. }
  split. { rewrite Forall_forall in Fe, Fo |- *. intros z Iz. apply in_map_iff in Iz as (z' & <- & Iz). destruct (Fo z') as [_ Dz]; [rewrite Eab; apply in_or_app; now left|]. rewrite (Fe z' Iz) in Dz. now rewrite Ey. }
  split; [|now rewrite Ey].
  rewrite Eab in So, Nd. apply tsorted_app in So as (Sa & _). rewrite map_app in Nd. apply nodup_app_l in Nd. 
  apply (FOP_imp (fun u v => sortitem_cmp u v <= 0 /\ snd u <> snd v) Z.lt (fun u v => v = snd u) a (map snd a)).
  - apply FOP_and; [now apply tsorted_FOP|now apply FOP_NoDup].
  - clear. induction a; cbn [map]; constructor; auto.
  - rewrite Forall_forall in Fe. intros u ? v ? Iu Iv -> -> [C N]. unfold sortitem_cmp in C. rewrite (Fe u Iu), (Fe v Iv) in C. replace (fst x - fst x =? 0) with true in C by lia. lia.
Qed.

Lemma report_ok m pm order start : mrel m pm -> pinv L bl lc pm -> Permutation (order m) (map fst m) ->
  exists ds, report L junk order start m = Ret ds /\
   Forall (fun d => dcnt d = zlen (dothers d) /\ good_block ls bl (dn d) (dat d - start) (map (fun b => b - start) (dothers d)) (dtext d)) ds /\
   ForallOrdPairs (fun d e => dn e < dn d \/ dn e = dn d /\ dat d < dat e) ds /\
   ForallOrdPairs (fun d e => dat d + dn d <= dat e \/ dat e + dn e <= dat d) ds /\
   (forall a b, 0 <= a -> a + bl <= b -> b + bl < lc -> same ls bl a b -> ~ recurs ls bl a -> exists d, In d ds /\ dat d - start <= a < dat d - start + dn d).
Proof using All.
  intros M P O. pose proof P as (Pe & Pd & Pc).
  assert (KK : map fst m = map fst pm) by (clear -M; induction M as [|e p m pm [E _] M IH]; cbn [map]; [reflexivity|now rewrite E, IH]).
  assert (ND : NoDup (map fst pm)).
  { clear -Pe Pd Hbl. induction Pd as [|[k xs] pm F Pd IH]; cbn [map]; [constructor|]. inversion Pe as [|? ? (H1 & (N & _ & Fo & _) & _) Pe']; subst. constructor; [|auto]. cbn [fst snd] in *. intros I. apply in_map_iff in I as ([k' ys] & E & I). cbn [fst] in E. subst k'. rewrite Forall_forall in F. specialize (F _ I). unfold apart in F. cbn [fst snd] in F. destruct xs as [|x xs]; [contradiction|]. inversion F; inversion Fo; subst. lia. }
  assert (ZL : zlen (order m) <= lc).
  { (* distinct keys below lc *)
    assert (NDo : NoDup (order m)) by (eapply Permutation_NoDup; [apply Permutation_sym, O|]; now rewrite KK).
    assert (I : incl (order m) (map Z.of_nat (seq 0 (length L)))). { intros k Ik. pose proof (Permutation_in _ O Ik) as I. rewrite KK in I. apply in_map_iff in I as (p & <- & I). rewrite Forall_forall in Pe. destruct (Pe p I) as (H & _). apply in_map_iff. exists (Z.to_nat (fst p)). split; [lia|]. apply in_seq. unfold zlen in H. lia. }
    pose proof (NoDup_incl_length NDo I) as H. rewrite map_length, seq_length in H. unfold zlen. lia. }
  destruct (collect_ok m pm lc M P (order m) tglist_init [] (init_trep 8) (tsorted_nil _)) as (si & ys & zs & EC & Ts & Ss & F2 & Pz).
  { change (zlen []) with 0. lia. }
  { apply Forall_forall. intros k Ik. eapply Permutation_in; [exact O|exact Ik]. }
  rewrite app_nil_r in Pz. unfold report. rewrite EC. cbn [bind]. rewrite (r_cnt _ _ _ Ts). unfold zlen at 1. rewrite Nat2Z.id.
  assert (MZ : map snd zs = order m) by (clear -F2; induction F2 as [|k z o zs [E _] F2 IH]; cbn [map]; [reflexivity|now rewrite E, IH]).
  assert (Tz : Forall (fun y => top_of pm (snd y) y) ys).
  { eapply Permutation_Forall; [apply Permutation_sym, Pz|]. clear -F2. induction F2 as [|k z o zs T F2 IH]; constructor; auto. destruct T as [<- T]. split; auto. }
  destruct (print_ok m pm lc start si ys M P Ts ND Tz ys [] eq_refl) as (ds & EP & FD). change (zlen []) with 0 in EP. rewrite EP. exists ds. split; [reflexivity|]. split.
  { clear -FD. induction FD as [|y d ys ds (A & B & C & D) F IH]; constructor; auto. }
  assert (NDy : NoDup (map snd ys)). { eapply Permutation_NoDup; [apply Permutation_map, Permutation_sym, Pz|]. rewrite MZ. eapply Permutation_NoDup; [apply Permutation_sym, O|]. now rewrite KK. }
  split; [|split].
  - eapply (FOP_imp _ _ (drec pm start)); [apply FOP_and; [apply tsorted_FOP, Ss|apply (FOP_NoDup snd), NDy]|exact FD|]. intros u d v e _ _ (D1 & D2 & _) (E1 & E2 & _) [C N]. unfold sortitem_cmp in C. rewrite D1, D2, E1, E2. destruct (fst v - fst u =? 0) eqn:?; lia.
  - eapply (FOP_imp _ _ (drec pm start)); [apply (FOP_NoDup snd), NDy|exact FD|]. intros u d v e Iu Iv (D1 & D2 & _) (E1 & E2 & _) N. rewrite D1, D2, E1, E2. rewrite Forall_forall in Tz. destruct (Tz u Iu) as (_ & x & xs & Ix & Ex). destruct (Tz v Iv) as (_ & x' & xs' & Ix' & Ex').
    destruct (ForallOrdPairs_In Pd _ _ Ix Ix') as [Eq|[A|A]]; [exfalso; apply N; congruence| |]; unfold apart in A; cbn [fst snd] in A; inversion A; subst; lia.
  - intros a b Ha Hb Hbl' Sa Nr. destruct (Pc a ltac:(lia)) as [(k & xs & x & I1 & I2 & Hk)|Hc]; [|exfalso; apply Nr; eapply Hc; eauto].
    assert (Io : In k (order m)). { eapply Permutation_in; [apply Permutation_sym, O|]. rewrite KK. apply (in_map fst) in I1. exact I1. } rewrite <- MZ in Io. apply in_map_iff in Io as (z & Ez & Iz). assert (Iy : In z ys) by (eapply Permutation_in; [apply Permutation_sym, Pz|exact Iz]).
    assert (exists d, In d ds /\ drec pm start z d) as (d & Id & (D1 & D2 & _)). { clear -FD Iy. induction FD as [|u d ys ds T F IH]; [destruct Iy|]. destruct Iy as [->|I]; [exists d; split; [now left|exact T]|]. destruct (IH I) as (d' & I' & T'). exists d'. split; [now right|exact T']. }
    exists d. split; [exact Id|]. rewrite D1, D2, Ez. rewrite Forall_forall in Tz. destruct (Tz z Iy) as (_ & x0 & xs0 & I0 & E0). rewrite Ez in I0.
    assert (xs = x0 :: xs0). { clear -ND I1 I0. induction pm as [|[k' zs] pm IH]; [destruct I1|]. cbn [map fst] in ND. inversion ND as [|? ? N1 N2]; subst. destruct I1 as [E1|J1], I0 as [E2|J2]; [congruence| | |auto]; exfalso; apply N1; [injection E1 as -> _; apply (in_map fst) in J2; exact J2|injection E2 as -> _; apply (in_map fst) in J1; exact J1]. } subst xs.
    rewrite Forall_forall in Pe. destruct (Pe _ I1) as (_ & (_ & So & _) & _). cbn [snd] in So. inversion So as [|? ? Sx _]; subst. rewrite Forall_forall in Sx. assert (fst x <= fst x0). { destruct I2 as [->|I2]; [lia|]. specialize (Sx x I2). unfold sortitem_cmp in Sx. destruct (fst x - fst x0 =? 0) eqn:?; lia. } lia.
Qed.
End R.
