(** Proofs about the destruction macros. *)
From Coq Require Import Permutation.
From Verif Require Import Base Cstr M_tglist S_tglist D_tglist P_tglist P_tgilist M_bmap S_bmap D_bmap P_bmap P_hbmap M_fini S_fini.

Section T.
Context {A : Type}.
Lemma free_loop_ok isz xs : forall (l : tgl A), trep isz l xs -> exists l', free_loop (Z.to_nat (tcnt l)) l = Ret (rev xs, l') /\ trep isz l' [] /\ tcapa l' = tcapa l.
Proof.
  induction xs as [|x xs IH] using rev_ind; intros l HT; rewrite (r_cnt _ _ _ HT).
  - change (Z.to_nat (zlen [])) with O. cbn [free_loop]. rewrite (r_cnt _ _ _ HT). cbn. exists l. auto.
  - zl. zpos. replace (Z.to_nat (zlen xs + (1 + 0))) with (S (Z.to_nat (zlen xs))) by lia. cbn [free_loop].
    rewrite (r_cnt _ _ _ HT). zl. replace (0 <? zlen xs + (1 + 0)) with true by lia. replace (zlen xs + (1 + 0) - 1) with (zlen xs) by lia. cbn [tcnt tcapa tmem].
    assert (HT' : trep isz (mkTg (zlen xs) (tcapa l) (tmem l)) xs).
    { destruct HT as [[j E] R2 R3 R4 R5]. split; cbn [tmem tcnt tcapa]; auto. exists (x :: j). rewrite E, <- app_assoc. reflexivity. }
    replace (tglist_get _ (zlen xs)) with (Ret x).
    + cbn [bind]. destruct (IH _ HT') as (l' & E & T & C). cbn [tcnt] in E. rewrite E. cbn [bind]. exists l'. rewrite rev_app_distr. auto.
    + symmetry. apply (get_ok isz l xs x []). exact HT.
Qed.
Lemma free_values_ok isz (l : tgl A) xs : trep isz l xs -> isz = 8 -> exists l', tglist_free_values isz l = Ret (rev xs, l') /\ trep isz l' [] /\ tcapa l' = tcapa l.
Proof. intros HT E. unfold tglist_free_values. rewrite E. cbn [Z.eqb Pos.eqb]. rewrite <- E. now apply (free_loop_ok isz). Qed.
Lemma free_values_no isz (l : tgl A) : isz <> 8 -> tglist_free_values isz l = Ret ([], l).
Proof. intros H. unfold tglist_free_values. now replace (isz =? 8) with false by lia. Qed.

Lemma incl_perm {B} (l m : list B) : NoDup l -> incl l m -> exists r, Permutation m (l ++ r).
Proof.
  revert m. induction l as [|a l IH]; intros m HD HI; [exists m; reflexivity|]. apply NoDup_cons_iff in HD as [HN HD].
  destruct (in_split a m (HI a (or_introl eq_refl))) as (p & q & ->). destruct (IH (p ++ q) HD) as (r & HR).
  - intros b Hb. specialize (HI b (or_intror Hb)). rewrite in_app_iff in *. destruct HI as [H|[H|H]]; auto. subst b. contradiction.
  - exists r. cbn [app]. rewrite <- HR. symmetry. apply Permutation_middle.
Qed.
Lemma znth_iota (d : A) vs : map (znth d vs) (map Z.of_nat (seq 0 (length vs))) = vs.
Proof.
  rewrite map_map. change vs with ([] ++ vs) at 1. change O with (length (@nil A)). generalize (@nil A). induction vs as [|x vs IH]; intros p; [reflexivity|].
  cbn [length seq map]. f_equal.
  - change (Z.of_nat (length p)) with (zlen p). apply znth_app_exact.
  - specialize (IH (p ++ [x])). rewrite app_length in IH. cbn [length] in IH. rewrite Nat.add_1_r in IH. rewrite <- IH at 2. apply map_ext. intros n. now rewrite <- app_assoc.
Qed.
Lemma pick_map (vs : list A) ks xs d : pick vs ks xs -> xs = map (znth d vs) ks.
Proof. intros H. induction H as [|k y ks xs H H' IH]; [reflexivity|]. cbn [map]. now rewrite H, <- IH. Qed.
Lemma pick_perm (vs : list A) ks xs : Forall (fun k => 0 <= k < zlen vs) ks -> NoDup ks -> pick vs ks xs -> exists D, Permutation vs (xs ++ D).
Proof.
  intros HR HD HP. destruct xs as [|d xs']; [exists vs; reflexivity|]. rewrite (pick_map _ _ _ d HP).
  destruct (incl_perm ks (map Z.of_nat (seq 0 (length vs))) HD) as (r & HX).
  - intros k Hk. pose proof (proj1 (Forall_forall _ _) HR k Hk) as Hr. cbn in Hr. unfold zlen in Hr. apply in_map_iff. exists (Z.to_nat k). split; [lia|]. apply in_seq. lia.
  - exists (map (znth d vs) r). rewrite <- map_app. rewrite <- (znth_iota d vs) at 1. now apply Permutation_map.
Qed.
End T.

Lemma fop_app {B} (R : B -> B -> Prop) l m : ForallOrdPairs R l -> ForallOrdPairs R m -> (forall a b, In a l -> In b m -> R a b) -> ForallOrdPairs R (l ++ m).
Proof.
  intros HL HM H. induction HL as [|a l HA HL IH]; [exact HM|]. cbn [app]. constructor.
  - apply Forall_app. split; [exact HA|]. apply Forall_forall. intros b Hb. apply H; [now left|exact Hb].
  - apply IH. intros x b Hx Hb. apply H; [now right|exact Hb].
Qed.
(** ---------- maps ---------- *)
Section C.
Context {K V : Type}.
Variable cmp : K -> K -> Z.
Hypothesis HO : total_order cmp.
Lemma combine_fst {X Y} (a : list X) : forall (b : list Y), zlen a = zlen b -> map fst (combine a b) = a.
Proof. induction a as [|x a IH]; intros [|y b] H; zl; zpos; try lia; [reflexivity|]. cbn [combine map fst]. now rewrite IH by lia. Qed.
Lemma combine_snd {X Y} (a : list X) : forall (b : list Y), zlen a = zlen b -> map snd (combine a b) = b.
Proof. induction a as [|x a IH]; intros [|y b] H; zl; zpos; try lia; [reflexivity|]. cbn [combine map snd]. now rewrite IH by lia. Qed.
Lemma combine_lookup ks : forall vs (m : fmap K V), zlen ks = zlen vs -> ssorted cmp ks -> (forall k, In k ks -> m k = lookup cmp k ks vs) -> Forall (fun p => m (fst p) = Some (snd p)) (combine ks vs).
Proof using All.
  intros vs m HL HS HM. apply Forall_forall. intros [k v] Hin. cbn [fst snd]. destruct (in_split _ _ Hin) as (p & q & E).
  assert (E1 : ks = map fst p ++ k :: map fst q) by (rewrite <- (combine_fst ks vs HL), E, map_app; reflexivity).
  assert (E2 : vs = map snd p ++ v :: map snd q) by (rewrite <- (combine_snd ks vs HL), E, map_app; reflexivity).
  rewrite HM by (rewrite E1; apply in_elt). rewrite E1, E2. apply (lookup_at cmp HO); [now rewrite <- E1|unfold zlen; now rewrite !map_length|now apply to_refl].
Qed.
Lemma sorted_pairs ks : forall (vs : list V), zlen ks = zlen vs -> ssorted cmp ks -> ForallOrdPairs (fun p q => cmp (fst p) (fst q) <> 0) (combine ks vs).
Proof using All.
  induction ks as [|k ks IH]; intros [|v vs] HL HS; zl; zpos; try lia; cbn [combine]; [constructor|]. destruct HS as [HS1 HS2]. constructor; [|apply IH; [lia|exact HS2]].
  apply Forall_forall. intros [k' v'] Hin. apply in_combine_l in Hin. cbn [fst]. pose proof (proj1 (Forall_forall _ _) HS1 k' Hin) as Hc. cbn in Hc. lia.
Qed.

End C.
Section B.
Context {K V St : Type}.
Variable vrep : Z -> St -> list V -> Prop.
Variable vf : vfree V St.
Variable FV : list V -> list V -> Prop.
Hypothesis HF : forall n s l, vrep n s l -> exists fs s', f_values vf s = Ret (fs, s') /\ FV fs l.
Variable ksz : Z.
Hypothesis Hksz : ksz = 8.
Variable cmp : K -> K -> Z.
Hypothesis HO : total_order cmp.

Definition fini_events (fl : list Z) (fk : list K) (fv : list V) : list (fev K V) :=
  (if negb (flag fl 1 =? 0) then map FreeKey fk else []) ++ (if negb (flag fl 2 =? 0) then map FreeVal fv else []) ++ FreeArr AKeys :: map FreeArr (f_arrays vf).
Lemma bfini_ok fl n b ks vs : brep vrep ksz cmp n b ks vs -> exists fv, FV fv vs /\ bmap_fini vf ksz fl b = Ret (fini_events fl (rev ks) fv).
Proof using All.
  intros HB. destruct (HF _ _ _ (br_v _ _ _ _ _ _ _ HB)) as (fs & s' & E & HP). destruct (free_values_ok ksz _ _ (br_k _ _ _ _ _ _ _ HB) Hksz) as (l' & El & _).
  exists fs. split; [assumption|]. unfold bmap_fini, fini_events. rewrite El, E. destruct (flag fl 1 =? 0), (flag fl 2 =? 0); reflexivity.
Qed.
Lemma enum_brep n b ks vs m : brep vrep ksz cmp n b ks vs -> (forall k, m k = lookup cmp k ks vs) -> enumerates cmp m (combine ks vs).
Proof using All.
  intros HB HM. pose proof (br_e _ _ _ _ _ _ _ HB) as HL. pose proof (br_s _ _ _ _ _ _ _ HB) as HS. split; [|split].
  - apply (combine_lookup cmp HO); auto.
  - now apply (sorted_pairs cmp HO).
  - intros k Hk. rewrite HM in Hk. destruct (lookup_some_in cmp k ks vs Hk) as (p & x & q & E & Hx). apply Exists_exists.
    destruct (vsplit _ _ _ _ _ HL E) as (vp & v & vq & E2 & El). exists (x, v). split; [|exact Hx].
    subst ks vs. clear -El. revert vp El. induction p as [|y p IH]; intros [|z vp] El; zl; zpos; try lia; cbn [app combine]; [now left|right; apply IH; lia].
Qed.
Lemma bfini_holds fl n b m : holds vrep ksz cmp n b m -> exists kv fv, enumerates cmp m kv /\ FV fv (map snd kv) /\ bmap_fini vf ksz fl b = Ret (fini_events fl (rev (map fst kv)) fv).
Proof using All.
  intros (ks & vs & HB & HM). destruct (bfini_ok fl _ _ _ _ HB) as (fv & HP & E). exists (combine ks vs), fv. pose proof (br_e _ _ _ _ _ _ _ HB) as HL.
  rewrite combine_fst, combine_snd by exact HL. split; [eapply enum_brep; eauto|auto].
Qed.

Variable hash : K -> Z.
Hypothesis HH : hash_ok cmp hash.
Lemma hfini_ok fl n nb m h : forall i, (forall j, 0 <= j < zlen h -> exists b ks vs, zread h j = Ret b /\ bk vrep ksz cmp hash n nb (i + j) m b ks vs) ->
  exists bs, zlen bs = zlen h /\ Forall (fun p => FV (snd p) (map snd (fst p))) bs /\
    hbmap_fini vf ksz fl h = Ret (concat (map (fun p => fini_events fl (rev (map fst (fst p))) (snd p)) bs)) /\
    Forall (fun p => m (fst p) = Some (snd p) /\ i <= hash (fst p) mod nb) (concat (map fst bs)) /\
    ForallOrdPairs (fun p q => cmp (fst p) (fst q) <> 0) (concat (map fst bs)) /\
    (forall k, i <= hash k mod nb < i + zlen h -> m k <> None -> Exists (fun p => cmp k (fst p) = 0) (concat (map fst bs))).
Proof using All.
  induction h as [|b h IH]; intros i HB.
  - exists []. split; [reflexivity|]. split; [constructor|]. split; [reflexivity|]. split; [constructor|]. split; [constructor|]. change (zlen []) with 0. intros k Hk. lia.
  - zl. zpos. destruct (HB 0 ltac:(lia)) as (b0 & ks & vs & E0 & [B1 B2 B3 B4]). rewrite zread_cons0 in E0. injection E0 as <-. rewrite Z.add_0_r in *.
    destruct (IH (i + 1)) as (bs & L & F1 & E & F2 & F3 & F4).
    { intros j Hj. destruct (HB (j + 1) ltac:(lia)) as (b' & ks' & vs' & E' & HB'). exists b', ks', vs'. rewrite zread_consS in E' by lia. replace (j + 1 - 1) with j in E' by lia. replace (i + (j + 1)) with (i + 1 + j) in HB' by lia. auto. }
    destruct (bfini_ok fl _ _ _ _ B1) as (fv & HP & Eb). pose proof (br_e _ _ _ _ _ _ _ B1) as HL. pose proof (br_s _ _ _ _ _ _ _ B1) as HS.
    assert (HM : forall k, In k ks -> m k = lookup cmp k ks vs) by (intros k Hk; apply B4; exact (proj1 (Forall_forall _ _) B3 k Hk)).
    exists ((combine ks vs, fv) :: bs). split; [zl; lia|]. split; [constructor; [cbn [fst snd]; now rewrite combine_snd|exact F1]|].
    split; [cbn [hbmap_fini map concat fst snd]; rewrite Eb, E; cbn [bind]; now rewrite combine_fst|]. cbn [map concat fst]. split; [|split].
    + apply Forall_app. split; [|eapply Forall_impl; [|exact F2]; cbn; intros p [Hp Hq]; split; [exact Hp|lia]].
      apply Forall_forall. intros [k v] Hin. pose proof (proj1 (Forall_forall _ _) (combine_lookup cmp HO ks vs m HL HS HM) (k, v) Hin) as Hm. split; [exact Hm|].
      apply in_combine_l in Hin. pose proof (proj1 (Forall_forall _ _) B3 k Hin) as Hh. cbn in *. lia.
    + apply fop_app; [now apply (sorted_pairs cmp HO)|exact F3|]. intros [k v] [k' v'] Hin Hin'. cbn [fst]. intros Ec. destruct HH as [_ HE]. apply HE in Ec.
      apply in_combine_l in Hin. pose proof (proj1 (Forall_forall _ _) B3 k Hin) as Hh. pose proof (proj1 (Forall_forall _ _) F2 _ Hin') as [_ Hq]. cbn in *. rewrite <- Ec in Hq. lia.
    + intros k Hk Hm. apply Exists_app. destruct (Z.eq_dec (hash k mod nb) i) as [Ei|]; [left|right; apply F4; [lia|exact Hm]].
      rewrite (B4 k Ei) in Hm. destruct (lookup_some_in cmp k ks vs Hm) as (p & x & q & E1 & Hx). apply Exists_exists.
      destruct (vsplit _ _ _ _ _ HL E1) as (vp & v & vq & E2 & El). exists (x, v). split; [|exact Hx].
      subst ks vs. clear -El. revert vp El. induction p as [|y p IH]; intros [|z vp] El; zl; zpos; try lia; cbn [app combine]; [now left|right; apply IH; lia].
Qed.
End B.

(** ---------- instances ---------- *)
Lemma land1 f : negb (Z.land f 1 =? 0) = wants_keys f.
Proof.
  unfold wants_keys. change 1 with (Z.ones 1). rewrite Z.land_ones by lia. change (2 ^ 1) with 2. rewrite Zmod_odd, Z.bit0_odd. destruct (Z.odd f); reflexivity.
Qed.
Lemma land2 f : negb (Z.land f 2 =? 0) = wants_vals f.
Proof.
  unfold wants_vals. destruct (Z.testbit f 1) eqn:E.
  - destruct (Z.land f 2 =? 0) eqn:E2; [|reflexivity]. apply Z.eqb_eq in E2. assert (H : Z.testbit (Z.land f 2) 1 = true) by (rewrite Z.land_spec, E; reflexivity). rewrite E2 in H. discriminate H.
  - replace (Z.land f 2) with 0; [reflexivity|]. symmetry. apply Z.bits_inj'. intros n Hn. rewrite Z.land_spec, Z.bits_0. change 2 with (2 ^ 1). rewrite Z.pow2_bits_eqb by lia.
    destruct (1 =? n) eqn:En; [|apply andb_false_r]. replace n with 1 by lia. now rewrite E.
Qed.
Lemma events_sel {K V St} (vf : vfree V St) f (fk : list K) fv :
  fini_events vf [f] fk fv = sel (wants_keys f) (map FreeKey fk) ++ sel (wants_vals f) (map FreeVal fv) ++ FreeArr AKeys :: map FreeArr (f_arrays vf).
Proof. unfold fini_events, flag. now rewrite land1, land2. Qed.
Lemma vf_tglist V n s (l : list V) : trepn 8 n s l -> exists fs s', f_values (vfree_tglist V 8) s = Ret (fs, s') /\ fs = rev l.
Proof. intros [HT _]. destruct (free_values_ok 8 s l HT eq_refl) as (l' & E & _). exists (rev l), l'. auto. Qed.
Lemma vf_tgilist V n s (l : list V) : grepn 8 n s l -> exists fs s', f_values (vfree_tgilist V 8) s = Ret (fs, s') /\ exists D, Permutation fs (l ++ D).
Proof.
  intros (ks & st & HG & HP & _). destruct (free_values_ok 8 _ _ (g_val _ _ _ _ _ HG) eq_refl) as (l' & E & _). exists (rev st). eexists. unfold f_values, vfree_tgilist, tgilist_free_values. rewrite E. cbn [bind]. split; [reflexivity|].
  destruct (pick_perm st ks l (g_rng _ _ _ _ _ HG) (g_dup _ _ _ _ _ HG) HP) as (D & HD). exists D. rewrite <- HD. symmetry. apply Permutation_rev.
Qed.
Lemma log_run {A} (xs : list A) rs xs' D : lspec_log xs rs xs' D -> lspec_run xs rs xs'.
Proof. induction 1; econstructor; eauto. Qed.
Lemma log_nodel {A} (xs : list A) rs xs' D : lspec_log xs rs xs' D -> Forall (fun r => forall pos, snd (fst r) <> LDel pos) rs -> D = [].
Proof.
  induction 1 as [|l b o r l' h l'' g HS HL IH]; intros HF; [reflexivity|]. apply Forall_cons_iff in HF as [H1 H2]. rewrite (IH H2), app_nil_r. cbn [fst snd] in H1.
  destruct o; try reflexivity. now specialize (H1 pos).
Qed.
