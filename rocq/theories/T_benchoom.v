(** C101 with failing allocations: the benchmarks end in an assertion or give the same result. *)
From Coq Require Import Permutation.
From Verif Require Import Base M_tglist S_tglist D_tglist P_tglist P_tgilist M_bmap S_bmap D_bmap P_bmap P_hbmap M_fini S_fini P_fini S_num P_num M_bench S_bench P_bench T_bench.

(** ---------- the loops, over any map whose insertion may fail ---------- *)
Section G.
Context {K S : Type}.
Variable cmp : K -> K -> Z.
Hypothesis HE : forall k k', cmp k k' = 0 <-> k = k'.
Variable R : Z -> S -> fmap K Z -> Prop.
Variable ins : Z -> S -> K -> Z -> out S.
Variable contains : S -> K -> out bool.
Variable get : S -> K -> out (option Z).
Variable key : Z -> K.
Variable N : Z.
Hypothesis HN : 0 <= N < 2 ^ 31.
Hypothesis Hkey : forall i j, 0 <= i < N -> 0 <= j < N -> key i = key j -> i = j.
Hypothesis Hins : forall n i s m dom, 0 <= n -> 0 <= i < N -> R (n + 1) s m -> m (key i) = None -> (forall k, m k <> None -> In k dom) -> zlen dom < 2 ^ 31 ->
  exists s', ins i s (key i) i = Ret s' /\ (R n s' m \/ R n s' (fset cmp m (key i) i)).
Hypothesis Hcon : forall n s m k, R n s m -> exists b, contains s k = Ret b /\ (b = true <-> m k <> None).
Hypothesis Hget : forall n s m k, R n s m -> get s k = Ret (m k).

Definition part (i : Z) (m : fmap K Z) : Prop := forall k v, m k = Some v -> 0 <= v < i /\ k = key v.
Lemma part_fset i j m : 0 <= i < j -> part j m -> part j (fset cmp m (key i) i).
Proof using All.
  intros Hi HP k v. unfold fset. destruct (cmp (key i) k =? 0) eqn:E; [|apply HP]. apply Z.eqb_eq, HE in E. subst k. intros H. injection H as <-. split; [lia|reflexivity].
Qed.
Lemma part_le i j m : i <= j -> part i m -> part j m.
Proof using All. intros H HP k v E. apply HP in E. split; [lia|tauto]. Qed.
Lemma part_dom i m : 0 <= i -> part i m -> forall k, m k <> None -> In k (map key (upto i)).
Proof using All. intros Hi HF k Hk. destruct (m k) as [v|] eqn:E; [|congruence]. apply HF in E as [H1 ->]. apply in_map. now apply In_upto. Qed.
Lemma part_none i m : 0 <= i < N -> part i m -> m (key i) = None.
Proof using All. intros Hi HF. destruct (m (key i)) as [v|] eqn:E; [|reflexivity]. apply HF in E as [H1 H2]. apply Hkey in H2; lia. Qed.
(** keys not inserted from here on stay as they are *)
Lemma fill_any q n : forall i s m, 0 <= q -> 0 <= i -> i + Z.of_nat n = N -> R (Z.of_nat n + q) s m -> part i m ->
  exists s' m', fill ins key n i s = Ret s' /\ R q s' m' /\ part N m' /\ (forall j, 0 <= j < i -> m' (key j) = m (key j)).
Proof using All.
  induction n as [|n IH]; intros i s m Hq Hi HS HR HF; cbn [fill].
  - exists s, m. replace N with i by lia. auto.
  - destruct (Hins (Z.of_nat n + q) i s m (map key (upto i))) as (s' & -> & HR'); [lia|lia|now replace (Z.of_nat n + q + 1) with (Z.of_nat (Datatypes.S n) + q) by lia|apply part_none; [lia|exact HF]|apply part_dom; [lia|exact HF]|unfold zlen in *; rewrite map_length; fold (zlen (upto i)); rewrite zlen_upto; lia|].
    cbn [bind]. destruct HR' as [HR'|HR'].
    + destruct (IH (i + 1) s' m) as (s2 & m2 & E & H1 & H2 & H3); auto; [lia|lia|apply (part_le i); [lia|exact HF]|]. exists s2, m2. split; [exact E|]. split; [exact H1|]. split; [exact H2|]. intros j Hj. apply H3. lia.
    + destruct (IH (i + 1) s' (fset cmp m (key i) i)) as (s2 & m2 & E & H1 & H2 & H3); auto; [lia|lia|apply part_fset; [lia|apply (part_le i); [lia|exact HF]]|].
      exists s2, m2. split; [exact E|]. split; [exact H1|]. split; [exact H2|]. intros j Hj. rewrite H3 by lia. unfold fset. destruct (cmp (key i) (key j) =? 0) eqn:E2; [|reflexivity]. apply Z.eqb_eq, HE in E2. apply Hkey in E2; lia.
Qed.
Lemma check_any q n : forall i s m, R q s m -> exists b, check contains key n i s = Ret b /\ (b = true <-> forall j, i <= j < i + Z.of_nat n -> m (key j) <> None).
Proof using All.
  induction n as [|n IH]; intros i s m HR; cbn [check].
  - exists true. split; [reflexivity|]. split; [intros _ j Hj; lia|reflexivity].
  - destruct (Hcon q s m (key i) HR) as (c & -> & HC). cbn [bind]. destruct c.
    + destruct (IH (i + 1) s m HR) as (b & E & HB). exists b. split; [exact E|]. rewrite HB. split; intros H j Hj; [|apply H; lia]. destruct (Z.eq_dec j i) as [->|]; [now apply HC|apply H; lia].
    + exists false. split; [reflexivity|]. split; [discriminate|]. intros H. apply HC. apply H. lia.
Qed.
Lemma part_filled m : part N m -> (forall j, 0 <= j < 0 + Z.of_nat (Z.to_nat N) -> m (key j) <> None) -> filled key N m.
Proof using All.
  intros HP HA k v. split; [apply HP|]. intros [Hv ->]. specialize (HA v ltac:(lia)). destruct (m (key v)) as [w|] eqn:E; [|congruence]. f_equal. apply HP in E as [H1 H2]. apply Hkey in H2; lia.
Qed.
Lemma seek_any rnd q s m n : forall j, 1 <= N -> (forall k, 0 <= rnd k) -> R q s m -> filled key N m -> total rnd N j < 2 ^ 31 ->
  seek get key rnd N n (Z.of_nat j) s (total rnd N j) = if total rnd N (j + n) <? 2 ^ 31 then Ret (total rnd N (j + n)) else UB.
Proof using All.
  induction n as [|n IH]; intros j H1 Hr HR HF HT; cbn [seek].
  - rewrite Nat.add_0_r. now replace (total rnd N j <? 2 ^ 31) with true by lia.
  - rewrite Z.rem_mod_nonneg by (try apply Hr; lia). pose proof (Z.mod_pos_bound (rnd (Z.of_nat j)) N ltac:(lia)) as Hm.
    rewrite (Hget q s m _ HR). cbn [bind]. rewrite (proj2 (HF (key (rnd (Z.of_nat j) mod N)) (rnd (Z.of_nat j) mod N))) by (split; [lia|reflexivity]).
    rewrite <- total_S. pose proof (total_pos rnd N (Datatypes.S j) H1) as Hp. replace (- 2 ^ 31 <=? total rnd N (Datatypes.S j)) with true by lia. cbn [andb].
    replace (j + Datatypes.S n)%nat with (Datatypes.S j + n)%nat by lia. destruct (total rnd N (Datatypes.S j) <? 2 ^ 31) eqn:E.
    + rewrite <- IH by (auto; lia). f_equal. lia.
    + pose proof (total_mono rnd N (Datatypes.S j) n H1). now replace (total rnd N (Datatypes.S j + n) <? 2 ^ 31) with false by lia.
Qed.
(** everything is there, or the check fails *)
Lemma check_filled q s m : R q s m -> part N m -> check contains key (Z.to_nat N) 0 s = Ret true /\ filled key N m \/ check contains key (Z.to_nat N) 0 s = Ret false /\ exists j, 0 <= j < N /\ m (key j) = None.
Proof using All.
  intros HR HP. destruct (check_any q (Z.to_nat N) 0 s m HR) as (b & -> & HB). destruct b.
  - left. split; [reflexivity|]. apply part_filled; [exact HP|]. now apply HB.
  - right. split; [reflexivity|].
    assert (D : forall n : nat, (exists j, 0 <= j < Z.of_nat n /\ m (key j) = None) \/ forall j, 0 <= j < Z.of_nat n -> m (key j) <> None).
    { induction n as [|n [(j & H1 & H2)|IH]]; [right; lia|left; exists j; split; [lia|exact H2]|]. destruct (m (key (Z.of_nat n))) eqn:E; [right|left; exists (Z.of_nat n); split; [lia|exact E]]. intros j Hj. destruct (Z.eq_dec j (Z.of_nat n)) as [->|]; [congruence|apply IH; lia]. }
    destruct (D (Z.to_nat N)) as [(j & H1 & H2)|H]; [exists j; split; [lia|exact H2]|]. discriminate (proj2 HB H).
Qed.
(** both together, from a start with any first key *)
Lemma core_any rnd q n0 i0 s0 m0 : 0 <= q -> 1 <= N -> (forall k, 0 <= rnd k) -> 0 <= i0 -> i0 + Z.of_nat n0 = N -> R (Z.of_nat n0 + q) s0 m0 -> part i0 m0 ->
  exists s m, fill ins key n0 i0 s0 = Ret s /\ R q s m /\ part N m /\ (forall j, 0 <= j < i0 -> m (key j) = m0 (key j)) /\
    (forall q' s' m', R q' s' m' -> part N m' -> check contains key (Z.to_nat N) 0 s' = Ret false /\ (exists j, 0 <= j < N /\ m' (key j) = None) \/
       check contains key (Z.to_nat N) 0 s' = Ret true /\ filled key N m' /\
       forall n, seek get key rnd N n 0 s' 0 = if total rnd N n <? 2 ^ 31 then Ret (total rnd N n) else UB).
Proof using All.
  intros Hq H1 Hr Hi HS HR HP. destruct (fill_any q n0 i0 s0 m0 Hq Hi HS HR HP) as (s & m & E & HR' & HP' & HK). exists s, m.
  split; [exact E|]. split; [exact HR'|]. split; [exact HP'|]. split; [exact HK|]. intros q' s' m' HR2 HP2.
  destruct (check_filled q' s' m' HR2 HP2) as [[EC HF]|[EC HX]]; [right|left; auto]. split; [exact EC|]. split; [exact HF|]. intros n. apply (seek_any rnd q' s' m' n 0%nat H1 Hr HR2 HF). reflexivity.
Qed.
End G.

(** ---------- bmap and hbmap ---------- *)
Section I.
Context {K : Type}.
Variable ksz : Z.
Hypothesis Hksz : 1 <= ksz.
Variable cmp : K -> K -> Z.
Hypothesis HO : total_order cmp.
Hypothesis HE : forall k k', cmp k k' = 0 <-> k = k'.
Variable bs : (K -> Z) -> list K -> option Z.
Hypothesis HB : bsearch_conforming bs.
Notation vo := (vops_tglist Z 4).
Notation holds := (holds (trepn (V := Z) 4) ksz cmp).
Lemma b_ins n ka va b m k v : 0 <= n -> holds (n + 1) b m ->
  exists i b', bmap_insert vo ksz cmp bs ka va b k v = Ret (i, b') /\ (holds n b' m \/ holds n b' (fset cmp m k v)).
Proof using All.
  intros Hn (ks & vs & HR & HM).
  destruct (binsert_ok vo has_mem (trepn 4) HV ksz Hksz cmp HO bs HB n ka va b ks vs k v Hn HR) as (i & b' & E & [(HR' & _)|(ks' & vs' & HR' & Hi & Hc & HL)]); exists i, b'; (split; [exact E|]).
  - left. exists ks, vs. auto.
  - right. exists ks', vs'. split; [exact HR'|]. intros k'. unfold fset. now rewrite HL, HM.
Qed.
Lemma b_ins_nocheck n ka va b m k v : 0 <= n -> holds (n + 1) b m -> m k = None ->
  exists r i b', bmap_insert_nocheck vo ksz cmp ka va b k v = Ret (r, i, b') /\ (holds n b' m \/ holds n b' (fset cmp m k v)).
Proof using All.
  intros Hn HH Hk. destruct (b_ins n ka va b m k v Hn HH) as (i & b' & E & HH'). destruct HH as (ks & vs & HR & HM).
  revert E. unfold bmap_insert. destruct (find_ok (trepn 4) ksz cmp HO bs HB _ _ _ _ k HR) as [-> _ _|? ? ? ? ? ? _ _ _ _ _ EL]; [|rewrite HM in Hk; congruence].
  cbn [Z.eqb Pos.eqb]. destruct (bmap_insert_nocheck vo ksz cmp ka va b k v) as [[[r ss] b'']| |]; cbn [bind]; try discriminate. intros E. injection E as <- <-. exists r, ss, b''. auto.
Qed.
Lemma b_has n b m k : holds n b m -> exists c, Ret (bmap_contains cmp bs b k) = Ret c /\ (c = true <-> m k <> None).
Proof using All. intros (ks & vs & HR & HM). eexists. split; [reflexivity|]. rewrite HM. apply (contains_ok (trepn 4) ksz cmp HO bs HB n b ks vs k HR). Qed.

Variable hash : K -> Z.
Hypothesis HH : hash_ok cmp hash.
Notation hinv := (hinv (trepn (V := Z) 4) ksz cmp hash).
Lemma h_ins n ka va h m k v dom : 0 <= n -> hinv (n + 1) h m -> (forall k, m k <> None -> In k dom) -> zlen dom < 2 ^ 31 ->
  exists it h', hbmap_insert vo ksz cmp bs hash ka va h k v = Ret (it, h') /\ (hinv n h' m \/ hinv n h' (fset cmp m k v)).
Proof using All.
  intros Hn HI HD HL.
  destruct (hinsert_ok vo has_mem (trepn 4) HV ksz Hksz cmp HO bs HB hash HH n ka va h m k v Hn HI) as (it & h' & E & [(_ & HI' & _)|(_ & HI' & _)]); [|exists it, h'; auto|exists it, h'; auto].
  intros b Eb. eapply bucket_small; eauto. pose proof (hi_nb _ _ _ _ _ _ _ HI) as Hnb. unfold buckindex. pose proof (Z.mod_pos_bound (hash k) (zlen h) ltac:(lia)). lia.
Qed.
Lemma h_ins_nocheck n ka va h m k v dom : 0 <= n -> hinv (n + 1) h m -> m k = None -> (forall k, m k <> None -> In k dom) -> zlen dom < 2 ^ 31 ->
  exists it h', hbmap_insert_nocheck vo ksz cmp hash ka va h k v = Ret (it, h') /\ (hinv n h' m \/ hinv n h' (fset cmp m k v)).
Proof using All.
  intros Hn HI Hk HD HL. destruct (h_ins n ka va h m k v dom Hn HI HD HL) as (it & h' & E & HI'). exists it, h'. split; [|exact HI'].
  unfold hbmap_insert in E. destruct (hfind_ok vo has_mem (trepn 4) HV ksz cmp HO bs HB hash _ _ _ k HI) as (i & Ei & HF). rewrite Ei in E. cbn [bind] in E.
  destruct HF as [? ? ? -> _ _ _ _|? ? ? ? ? ? ? _ _ _ Em _ _ _ _]; [|congruence]. now rewrite Z.eqb_refl in E.
Qed.
Lemma h_has n h m k : hinv n h m -> exists c, hbmap_contains cmp bs hash h k = Ret c /\ (c = true <-> m k <> None).
Proof using All.
  intros HI. unfold hbmap_contains. destruct (hfind_ok vo has_mem (trepn 4) HV ksz cmp HO bs HB hash _ _ _ k HI) as (i & -> & HF). cbn [bind]. eexists. split; [reflexivity|].
  destruct HF as [? ? ? -> Em _ _ _|? ? ? ? ? ? ? _ Hne _ Em _ _ _ _].
  - rewrite Z.eqb_refl, Em. cbn. intuition congruence.
  - replace (i =? SIZE_MAX) with false by lia. rewrite Em. cbn. intuition congruence.
Qed.
End I.

Lemma eq_sub (k k' : Z) : k - k' = 0 <-> k = k'. Proof. lia. Qed.
Lemma part0 {K} (key : Z -> K) : part key 0 fempty.
Proof. intros k v H. discriminate H. Qed.

(** ---------- over numbers ---------- *)
Section Int.
Variables N seeks : Z.
Hypothesis HN : 1 <= N < 2 ^ 31.
Hypothesis Hs : 0 <= seeks.
Variable rnd : Z -> Z.
Hypothesis Hr : forall k, 0 <= rnd k.
Variable bs : (Z -> Z) -> list Z -> option Z.
Hypothesis HB : bsearch_conforming bs.
Variables ka va : Z -> talloc Z.
Notation vo := (vops_tglist Z 4).
Notation tot := (total rnd N (Z.to_nat seeks)).
Notation normal := (if tot <? 2 ^ 31 then Ret (Some tot) else UB).
Lemma oom_bmap_int : test_bmap_int N seeks rnd bs ka va = Ret None \/ test_bmap_int N seeks rnd bs ka va = normal.
Proof using All.
  pose proof sub_order as HO. unfold test_bmap_int.
  destruct (core_any Z.sub eq_sub (holds (trepn 4) 4 Z.sub) (fun i b k v => let* (_, b) := bmap_insert vo 4 Z.sub bs (ka i) (va i) b k v in Ret b)
    (fun b k => Ret (bmap_contains Z.sub bs b k)) (bmap_get vo Z.sub bs) (fun i => i) N ltac:(lia) ltac:(auto)) with (q := 1) (n0 := Z.to_nat N) (i0 := 0) (rnd := rnd) (s0 := bmap_init vo : bmap Z (tgl Z)) (m0 := @fempty Z Z)
    as (b & m & -> & HH & HP & _ & HC); [| | |lia|lia|exact Hr|lia|lia|apply binit; [apply trepn_init; lia|lia]|apply part0|].
  { intros n i s m dom Hn Hi HH _ _ _. destruct (b_ins 4 ltac:(lia) Z.sub HO eq_sub bs HB n (ka i) (va i) s m i i Hn HH) as (ss & b' & -> & HH'). exists b'. auto. }
  { intros n s m k. now apply (b_has 4 ltac:(lia) Z.sub HO eq_sub bs HB). }
  { intros n s m k. now apply (b_get 4 ltac:(lia) Z.sub HO eq_sub bs HB). }
  cbn [bind]. destruct (HC 1 b m HH HP) as [[-> _]|(-> & _ & ES)]; [left; reflexivity|right]. cbn [bind]. rewrite ES. destruct (tot <? 2 ^ 31); reflexivity.
Qed.
Lemma oom_hbmap_int : test_hbmap_int N seeks rnd bs ka va = Ret None \/ test_hbmap_int N seeks rnd bs ka va = normal.
Proof using All.
  pose proof sub_order as HO. unfold test_hbmap_int.
  destruct (core_any Z.sub eq_sub (hinv (trepn 4) 4 Z.sub u32) (fun i h k v => let* (_, h) := hbmap_insert vo 4 Z.sub bs u32 (ka i) (va i) h k v in Ret h)
    (hbmap_contains Z.sub bs u32) (hbmap_get vo Z.sub bs u32) (fun i => i) N ltac:(lia) ltac:(auto)) with (q := 1) (n0 := Z.to_nat N) (i0 := 0) (rnd := rnd) (s0 := hbmap_init vo 256 : list (bmap Z (tgl Z))) (m0 := @fempty Z Z)
    as (h & m & -> & HI & HP & _ & HC); [| | |lia|lia|exact Hr|lia|lia|apply (hinit_ok vo (trepn 4)); [lia|apply trepn_init; lia|lia|lia]|apply part0|].
  { intros n i s m dom Hn Hi HI Hm HD HX. destruct (h_ins 4 ltac:(lia) Z.sub HO eq_sub bs HB u32 u32_ok n (ka i) (va i) s m i i dom Hn HI) as (it & h' & -> & HI'); auto. exists h'. auto. }
  { intros n s m k. now apply (h_has 4 ltac:(lia) Z.sub HO eq_sub bs HB u32 u32_ok). }
  { intros n s m k. now apply (h_get 4 ltac:(lia) Z.sub HO eq_sub bs HB u32 u32_ok). }
  cbn [bind]. destruct (HC 1 h m HI HP) as [[-> _]|(-> & _ & ES)]; [left; reflexivity|right]. cbn [bind]. rewrite ES. destruct (tot <? 2 ^ 31); reflexivity.
Qed.
(** no memory for the first key: it is lost *)
Lemma ins_none a : bmap_insert vo 4 Z.sub bs None a (bmap_init vo) 0 0 = Ret (-1, bmap_init vo).
Proof using All.
  assert (HN' : bs (Z.sub 0) [] = None).
  { pose proof (HB (Z.sub 0) []) as H. destruct (bs (Z.sub 0) []); [|reflexivity]. destruct H as (p & x & q & E & _); [|destruct p; discriminate E]. intros p x q y r E. destruct p; discriminate E. }
  unfold bmap_insert, bmap_find. change (ztake _ _) with (@nil Z). rewrite HN'. reflexivity.
Qed.
Lemma first_bmap_int : ka 0 = None -> test_bmap_int N seeks rnd bs ka va = Ret None.
Proof using All.
  intros H0. pose proof sub_order as HO. unfold test_bmap_int.
  replace (Z.to_nat N) with (Datatypes.S (Z.to_nat (N - 1))) at 1 by lia. cbn [fill]. rewrite H0, ins_none. cbn [bind].
  destruct (core_any Z.sub eq_sub (holds (trepn 4) 4 Z.sub) (fun i b k v => let* (_, b) := bmap_insert vo 4 Z.sub bs (ka i) (va i) b k v in Ret b)
    (fun b k => Ret (bmap_contains Z.sub bs b k)) (bmap_get vo Z.sub bs) (fun i => i) N ltac:(lia) ltac:(auto)) with (q := 1) (n0 := Z.to_nat (N - 1)) (i0 := 1) (rnd := rnd) (s0 := bmap_init vo : bmap Z (tgl Z)) (m0 := @fempty Z Z)
    as (b & m & E & HH & HP & HK & HC); [| | |lia|lia|exact Hr|lia|lia|apply binit; [apply trepn_init; lia|lia]|intros k v H; discriminate H|].
  { intros n i s m dom Hn Hi HH _ _ _. destruct (b_ins 4 ltac:(lia) Z.sub HO eq_sub bs HB n (ka i) (va i) s m i i Hn HH) as (ss & b' & -> & HH'). exists b'. auto. }
  { intros n s m k. now apply (b_has 4 ltac:(lia) Z.sub HO eq_sub bs HB). }
  { intros n s m k. now apply (b_get 4 ltac:(lia) Z.sub HO eq_sub bs HB). }
  change (0 + 1) with 1. rewrite E. cbn [bind]. destruct (HC 1 b m HH HP) as [[-> _]|(_ & HF & _)]; [reflexivity|]. exfalso. specialize (HK 0 ltac:(lia)). rewrite (proj2 (HF 0 0)) in HK by lia. discriminate HK.
Qed.
End Int.

(** ---------- over strings ---------- *)
Section Str.
Variables N seeks : Z.
Hypothesis HN : 1 <= N < 2 ^ 31.
Hypothesis Hs : 0 <= seeks.
Variable rnd : Z -> Z.
Hypothesis Hr : forall k, 0 <= rnd k.
Variable mag : list Z -> list Z -> Z.
Hypothesis Hmag : forall a b, 0 < mag a b.
Variable text : Z -> list Z.
Hypothesis Htext : forall i, 0 <= i < N -> is_decimal i (text i).
Variable bs : (list Z -> Z) -> list (list Z) -> option Z.
Hypothesis HB : bsearch_conforming bs.
Variable kas : Z -> talloc (list Z).
Variable va : Z -> talloc Z.
Notation vo := (vops_tglist Z 4).
Notation cmp := (strcmp mag).
Notation tot := (total rnd N (Z.to_nat seeks)).
Lemma inj_text i j : 0 <= i < N -> 0 <= j < N -> text i = text j -> i = j.
Proof using All. intros Hi Hj E. apply (decimal_inj i j (text i)); [lia|lia|now apply Htext|rewrite E; now apply Htext]. Qed.
Lemma oom_bmap : test_bmap N seeks rnd mag text bs kas va = Ret None \/
  if tot <? 2 ^ 31
  then exists ks, Permutation ks (map text (upto N)) /\ test_bmap N seeks rnd mag text bs kas va = Ret (Some (tot, map FreeKey ks ++ [FreeArr AKeys; FreeArr AValues]))
  else test_bmap N seeks rnd mag text bs kas va = UB.
Proof using All.
  pose proof (strcmp_order mag Hmag) as HO. pose proof (strcmp_eq mag Hmag) as HE. unfold test_bmap.
  destruct (core_any cmp HE (holds (trepn 4) 8 cmp) (fun i b k v => let* (_, _, b) := bmap_insert_nocheck vo 8 cmp (kas i) (va i) b k v in Ret b)
    (fun b k => Ret (bmap_contains cmp bs b k)) (bmap_get vo cmp bs) text N ltac:(lia) inj_text) with (q := 1) (n0 := Z.to_nat N) (i0 := 0) (rnd := rnd) (s0 := bmap_init vo : bmap (list Z) (tgl Z)) (m0 := @fempty (list Z) Z)
    as (b & m & -> & HH & HP & _ & HC); [| | |lia|lia|exact Hr|lia|lia|apply binit; [apply trepn_init; lia|lia]|apply part0|].
  { intros n i s m dom Hn Hi HH Hm _ _. destruct (b_ins_nocheck 8 ltac:(lia) cmp HO HE bs HB n (kas i) (va i) s m (text i) i Hn HH Hm) as (r & ss & b' & -> & HH'). exists b'. auto. }
  { intros n s m k. now apply (b_has 8 ltac:(lia) cmp HO HE bs HB). }
  { intros n s m k. now apply (b_get 8 ltac:(lia) cmp HO HE bs HB). }
  cbn [bind]. destruct (b_ins 8 ltac:(lia) cmp HO HE bs HB 0 (kas N) (va N) b m (text 0) 0 ltac:(lia) HH) as (i & b' & -> & HH').
  cbn [bind]. destruct (i =? 0); [|left; reflexivity].
  assert (HX : exists m', holds (trepn 4) 8 cmp 0 b' m' /\ part text N m').
  { destruct HH' as [HH'|HH']; [exists m; auto|]. exists (fset cmp m (text 0) 0). split; [exact HH'|].
    intros k v. unfold fset. destruct (cmp (text 0) k =? 0) eqn:E; [|apply HP]. apply Z.eqb_eq, HE in E. subst k. intros H. injection H as <-. split; [lia|reflexivity]. }
  clear HH'. destruct HX as (m' & HH' & HP'). destruct (HC 0 b' m' HH' HP') as [[-> _]|(-> & HF & ES)]; [left; reflexivity|right]. cbn [bind]. rewrite ES.
  destruct (tot <? 2 ^ 31) eqn:ET; [|reflexivity]. cbn [bind].
  destruct (bfini_holds (trepn 4) (vfree_tglist Z 4) (fun fs l => fs = []) ltac:(intros n s l _; exists [], s; split; [apply free_values_no; lia|reflexivity]) 8 eq_refl cmp HO [1] 0 b' m' HH') as (kv & fv & HEn & -> & EF).
  rewrite EF, events_sel. cbn [bind]. exists (rev (map fst kv)). split; [|reflexivity].
  rewrite <- (enum_keys cmp text N m' kv HE ltac:(lia) inj_text HF HEn). symmetry. apply Permutation_rev.
Qed.
Lemma oom_hbmap : test_hbmap N seeks rnd mag text bs kas va = Ret None \/
  if tot <? 2 ^ 31
  then exists kss, Permutation (concat kss) (map text (upto N)) /\ zlen kss = 256 /\
         test_hbmap N seeks rnd mag text bs kas va = Ret (Some (tot, concat (map (fun ks => map FreeKey ks ++ [FreeArr AKeys; FreeArr AValues]) kss)))
  else test_hbmap N seeks rnd mag text bs kas va = UB.
Proof using All.
  pose proof (strcmp_order mag Hmag) as HO. pose proof (strcmp_eq mag Hmag) as HE. pose proof (x31_ok mag Hmag) as HH. unfold test_hbmap.
  destruct (core_any cmp HE (fun n h m => hinv (trepn 4) 8 cmp x31_hash n h m /\ zlen h = 256) (fun i h k v => let* (_, h) := hbmap_insert_nocheck vo 8 cmp x31_hash (kas i) (va i) h k v in Ret h)
    (hbmap_contains cmp bs x31_hash) (hbmap_get vo cmp bs x31_hash) text N ltac:(lia) inj_text) with (q := 1) (n0 := Z.to_nat N) (i0 := 0) (rnd := rnd) (s0 := hbmap_init vo 256 : list (bmap (list Z) (tgl Z))) (m0 := @fempty (list Z) Z)
    as (h & m & -> & [HI HL] & HP & _ & HC); [| | |lia|lia|exact Hr|lia|lia|split; [apply (hinit_ok vo (trepn 4)); [lia|apply trepn_init; lia|lia|lia]|reflexivity]|apply part0|].
  { intros n i s m dom Hn Hi [HI HL] Hm HD HX. destruct (h_ins_nocheck 8 ltac:(lia) cmp HO HE bs HB x31_hash HH n (kas i) (va i) s m (text i) i dom Hn HI Hm HD HX) as (it & h' & EI & HI').
    rewrite EI. exists h'. split; [reflexivity|]. rewrite (hnocheck_len _ _ _ _ _ _ _ _ _ _ _ EI). tauto. }
  { intros n s m k [H _]. now apply (h_has 8 ltac:(lia) cmp HO HE bs HB x31_hash HH n). }
  { intros n s m k [H _]. now apply (h_get 8 ltac:(lia) cmp HO HE bs HB x31_hash HH n). }
  cbn [bind]. destruct (HC 1 h m (conj HI HL) HP) as [[-> _]|(-> & HF & ES)]; [left; reflexivity|right]. cbn [bind]. rewrite ES. destruct (tot <? 2 ^ 31) eqn:ET; [|reflexivity]. cbn [bind].
  destruct (hfini_ok (trepn 4) (vfree_tglist Z 4) (fun fs l => fs = []) ltac:(intros n s l _; exists [], s; split; [apply free_values_no; lia|reflexivity]) 8 eq_refl cmp HO x31_hash HH [1] 1 (zlen h) m h 0)
    as (ps & L & F1 & EF & F2 & F3 & F4); [exact (hi_b _ _ _ _ _ _ _ HI)|].
  rewrite EF. cbn [bind]. exists (map (fun p => rev (map fst (fst p))) ps). split; [|split].
  - assert (HEn : enumerates cmp m (concat (map fst ps))).
    { split; [eapply Forall_impl; [|exact F2]; cbn; tauto|]. split; [exact F3|]. intros k Hk. apply F4; [|exact Hk]. pose proof (Z.mod_pos_bound (x31_hash k) (zlen h) ltac:(lia)). lia. }
    rewrite <- (enum_keys cmp text N m _ HE ltac:(lia) inj_text HF HEn). clear. induction ps as [|p ps IH]; [reflexivity|]. cbn [map concat]. rewrite map_app. apply Permutation_app; [|exact IH]. symmetry. apply Permutation_rev.
  - unfold zlen in *. rewrite map_length. lia.
  - do 4 f_equal. rewrite map_map. apply map_ext_in. intros p Hp. rewrite events_sel. reflexivity.
Qed.
End Str.

(** C101 whatever the allocations in the map do: the benchmark ends in a failed assertion, before a key is looked
    up, or does exactly what it does with enough memory. *)
Theorem c101_bmap_bench_memory :
  forall N seeks rnd mag text bs kas va, 1 <= N < 2 ^ 31 -> 0 <= seeks -> (forall k, 0 <= rnd k) -> (forall a b, 0 < mag a b) ->
    (forall i, 0 <= i < N -> is_decimal i (text i)) -> bsearch_conforming bs ->
    test_bmap N seeks rnd mag text bs kas va = Ret None \/
    if total rnd N (Z.to_nat seeks) <? 2 ^ 31
    then exists ks, Permutation ks (map text (upto N)) /\
           test_bmap N seeks rnd mag text bs kas va = Ret (Some (total rnd N (Z.to_nat seeks), map FreeKey ks ++ [FreeArr AKeys; FreeArr AValues]))
    else test_bmap N seeks rnd mag text bs kas va = UB.
Proof. intros. now apply oom_bmap. Qed.
Print Assumptions c101_bmap_bench_memory.
Theorem c101_hbmap_bench_memory :
  forall N seeks rnd mag text bs kas va, 1 <= N < 2 ^ 31 -> 0 <= seeks -> (forall k, 0 <= rnd k) -> (forall a b, 0 < mag a b) ->
    (forall i, 0 <= i < N -> is_decimal i (text i)) -> bsearch_conforming bs ->
    test_hbmap N seeks rnd mag text bs kas va = Ret None \/
    if total rnd N (Z.to_nat seeks) <? 2 ^ 31
    then exists kss, Permutation (concat kss) (map text (upto N)) /\ zlen kss = 256 /\
           test_hbmap N seeks rnd mag text bs kas va = Ret (Some (total rnd N (Z.to_nat seeks), concat (map (fun ks => map FreeKey ks ++ [FreeArr AKeys; FreeArr AValues]) kss)))
    else test_hbmap N seeks rnd mag text bs kas va = UB.
Proof. intros. now apply oom_hbmap. Qed.
Print Assumptions c101_hbmap_bench_memory.
Theorem c101_int_bench_memory :
  forall N seeks rnd bs ka va, 1 <= N < 2 ^ 31 -> 0 <= seeks -> (forall k, 0 <= rnd k) -> bsearch_conforming bs ->
    let r := if total rnd N (Z.to_nat seeks) <? 2 ^ 31 then Ret (Some (total rnd N (Z.to_nat seeks))) else UB in
    (test_bmap_int N seeks rnd bs ka va = Ret None \/ test_bmap_int N seeks rnd bs ka va = r) /\
    (test_hbmap_int N seeks rnd bs ka va = Ret None \/ test_hbmap_int N seeks rnd bs ka va = r).
Proof. intros. split; [now apply oom_bmap_int|now apply oom_hbmap_int]. Qed.
Print Assumptions c101_int_bench_memory.
(** the assertion does fail: without memory for the first key, whatever comes later *)
Theorem c101_first_key_lost :
  forall N seeks rnd bs ka va, 1 <= N < 2 ^ 31 -> 0 <= seeks -> (forall k, 0 <= rnd k) -> bsearch_conforming bs ->
    ka 0 = None -> test_bmap_int N seeks rnd bs ka va = Ret None.
Proof. intros. now apply first_bmap_int. Qed.
Print Assumptions c101_first_key_lost.
(** a failure at insertion 0; at insertion 3, where the bmap needs no memory but the hbmap does (another bucket).
    In test_bmap a lost "0" comes back with the second insertion of "0". *)
Example c101_memory_example :
  let fail j i := if i =? j then None else Some (fun _ : Z => 0) in
  let t va := test_bmap 12 3 (fun k => 7 * k + 11) (fun _ _ => 5) text12 (fun f l => lsearch f 0 l) (fun _ => Some (fun _ => [])) va in
  test_bmap_int 12 3 (fun k => 7 * k + 11) (fun f l => lsearch f 0 l) (fun _ => Some (fun _ => 0)) (fail 0) = Ret None /\
  test_hbmap_int 12 3 (fun k => 7 * k + 11) (fun f l => lsearch f 0 l) (fun _ => Some (fun _ => 0)) (fail 3) = Ret None /\
  test_bmap_int 12 3 (fun k => 7 * k + 11) (fun f l => lsearch f 0 l) (fun _ => Some (fun _ => 0)) (fail 3) = Ret (Some 18) /\
  t (fail 0) = t (fail 100) /\
  t (fun i => if i <=? 1 then None else fail 0 i) = Ret None.
Proof. vm_compute. auto 10. Qed.
