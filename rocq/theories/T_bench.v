(** Property theorems about tests/bmap_bench.c and tests/hbmap_bench.c: C101. *)
From Coq Require Import Permutation.
From Verif Require Import Base M_tglist S_tglist D_tglist P_tglist P_tgilist M_bmap S_bmap D_bmap P_bmap P_hbmap M_fini S_fini P_fini S_num P_num M_bench S_bench P_bench.

(** ---------- the two benchmarks over strings ---------- *)
Section Str.
Variables N seeks : Z.
Hypothesis HN : 1 <= N < 2 ^ 31.
Hypothesis Hs : 0 <= seeks.
Variable rnd : Z -> Z.
Hypothesis Hr : forall k, 0 <= rnd k.
Variable mag : list Z -> list Z -> Z.
Hypothesis Hmag : forall a b, 0 < mag a b.
Variable text : Z -> list Z.
Hypothesis Htext : forall i, 0 <= i < N -> is_decimal i (text i).
Variable bs : (list Z -> Z) -> list (list Z) -> option Z.
Hypothesis HB : bsearch_conforming bs.
Variable kas : Z -> talloc (list Z).
Variable va : Z -> talloc Z.
Hypothesis Hka : forall i, 0 <= i <= N -> has_mem (kas i) = true.
Hypothesis Hva : forall i, 0 <= i <= N -> has_mem (va i) = true.
Notation vo := (vops_tglist Z 4).
Notation cmp := (strcmp mag).
Notation tot := (total rnd N (Z.to_nat seeks)).

Lemma text_inj i j : 0 <= i < N -> 0 <= j < N -> text i = text j -> i = j.
Proof using All. intros Hi Hj E. apply (decimal_inj i j (text i)); [lia|lia|now apply Htext|rewrite E; now apply Htext]. Qed.
Lemma zero_first b n m i b' : holds (trepn 4) 8 cmp (n + 1) b m -> 0 <= n -> filled text N m -> bmap_insert vo 8 cmp bs (kas N) (va N) b (text 0) 0 = Ret (i, b') ->
  i = 0 /\ exists m', holds (trepn 4) 8 cmp n b' m' /\ filled text N m'.
Proof using All.
  intros (ks & vs & HR & HM) Hn HF E. pose proof (strcmp_order mag Hmag) as HO.
  destruct (binsert_ok vo has_mem (trepn 4) HV 8 ltac:(lia) cmp HO bs HB n (kas N) (va N) b ks vs (text 0) 0 Hn HR) as (i' & b0 & E' & [(_ & F & _)|(ks' & vs' & HR' & Hi & Hc & HL)]).
  { unfold boths in F. rewrite Hka, Hva in F by lia. discriminate F. }
  rewrite E in E'. injection E' as <- <-.
  assert (HF' : filled text N (fun k => lookup cmp k ks' vs')).
  { intros k v. rewrite HL. destruct (cmp (text 0) k =? 0) eqn:Ec.
    - apply Z.eqb_eq, (strcmp_eq mag Hmag) in Ec. subst k. split; [intros H; injection H as <-; split; [lia|reflexivity]|]. intros [H1 H2]. apply text_inj in H2; [now subst|lia|lia].
    - rewrite <- HM. apply HF. }
  split; [|exists (fun k => lookup cmp k ks' vs'); split; [exists ks', vs'; auto|exact HF']].
  destruct (Z.eq_dec i 0) as [|Hne]; [assumption|exfalso]. pose proof (br_s _ _ _ _ _ _ _ HR') as HS. pose proof (br_e _ _ _ _ _ _ _ HR') as HE.
  destruct ks' as [|k0 ks']; [change (zlen []) with 0 in Hi; lia|]. destruct vs' as [|v0 vs']; [pose proof (zlen_nonneg ks'); zl; lia|].
  assert (H0 : lookup cmp k0 (k0 :: ks') (v0 :: vs') = Some v0) by (cbn [lookup]; now rewrite (proj2 (strcmp_eq mag Hmag k0 k0) eq_refl)).
  apply HF' in H0 as [Hv0 Ek0]. destruct HS as [HS _]. zl. pose proof (Forall_znth _ k0 ks' (i - 1) HS ltac:(lia)) as Hlt. cbn beta in Hlt.
  specialize (Hc k0). rewrite znth_consS in Hc by lia. apply (strcmp_eq mag Hmag) in Hc. rewrite <- Hc in Hlt. apply (strcmp_lt mag Hmag) in Hlt.
  rewrite (decimal_zero (text 0)) in Hlt by (apply Htext; lia). rewrite Ek0 in Hlt. pose proof (decimal_ge v0 (text v0) ltac:(lia) (Htext v0 Hv0)). lia.
Qed.

Lemma bench_bmap : if tot <? 2 ^ 31
  then exists ks, Permutation ks (map text (upto N)) /\ test_bmap N seeks rnd mag text bs kas va = Ret (Some (tot, map FreeKey ks ++ [FreeArr AKeys; FreeArr AValues]))
  else test_bmap N seeks rnd mag text bs kas va = UB.
Proof using All.
  pose proof (strcmp_order mag Hmag) as HO. pose proof (strcmp_eq mag Hmag) as HE. unfold test_bmap.
  destruct (core cmp HE (holds (trepn 4) 8 cmp) (fun i b k v => let* (_, _, b) := bmap_insert_nocheck vo 8 cmp (kas i) (va i) b k v in Ret b)
    (fun b k => Ret (bmap_contains cmp bs b k)) (bmap_get vo cmp bs) text N ltac:(lia) text_inj) with (q := 1) (n := Z.to_nat seeks) (rnd := rnd) (s0 := bmap_init vo : bmap (list Z) (tgl Z))
    as (b & m & -> & HH & HF & HC); [| | |lia|lia|exact Hr|apply binit; [apply trepn_init; lia|lia]|].
  { intros n i s m dom Hn Hi HH Hm _ _. destruct (b_nocheck 8 ltac:(lia) cmp HO HE bs HB n (kas i) (va i) s m (text i) i Hn HH Hm) as (r & ss & b' & -> & HH'); [apply Hka; lia|apply Hva; lia|]. exists b'. auto. }
  { intros n s m k v. now apply (b_contains 8 ltac:(lia) cmp HO HE bs HB). }
  { intros n s m k. now apply (b_get 8 ltac:(lia) cmp HO HE bs HB). }
  cbn [bind]. pose proof HH as HH0. destruct HH0 as (ks & vs & HR & HM).
  destruct (bmap_insert vo 8 cmp bs (kas N) (va N) b (text 0) 0) as [[i b']| |] eqn:EI.
  2,3: exfalso; destruct (binsert_ok vo has_mem (trepn 4) HV 8 ltac:(lia) cmp HO bs HB 0 (kas N) (va N) b ks vs (text 0) 0 ltac:(lia) HR) as (i & b' & E & _); rewrite EI in E; discriminate E.
  destruct (zero_first b 0 m i b' HH ltac:(lia) HF EI) as (-> & m' & HH' & HF'). cbn [bind Z.eqb].
  destruct (HC 0 b' m' HH' HF') as [-> ->]. cbn [bind]. destruct (tot <? 2 ^ 31) eqn:ET; [|reflexivity]. cbn [bind].
  destruct (bfini_holds (trepn 4) (vfree_tglist Z 4) (fun fs l => fs = []) ltac:(intros n s l _; exists [], s; split; [apply free_values_no; lia|reflexivity]) 8 eq_refl cmp HO [1] 0 b' m' HH') as (kv & fv & HEn & -> & EF).
  rewrite EF, events_sel. cbn [bind]. exists (rev (map fst kv)). split; [|reflexivity].
  rewrite <- (enum_keys cmp text N m' kv HE ltac:(lia) text_inj HF' HEn). symmetry. apply Permutation_rev.
Qed.
Lemma bench_hbmap : if tot <? 2 ^ 31
  then exists kss, Permutation (concat kss) (map text (upto N)) /\ zlen kss = 256 /\
         test_hbmap N seeks rnd mag text bs kas va = Ret (Some (tot, concat (map (fun ks => map FreeKey ks ++ [FreeArr AKeys; FreeArr AValues]) kss)))
  else test_hbmap N seeks rnd mag text bs kas va = UB.
Proof using All.
  pose proof (strcmp_order mag Hmag) as HO. pose proof (strcmp_eq mag Hmag) as HE. pose proof (x31_ok mag Hmag) as HH. unfold test_hbmap.
  destruct (core cmp HE (fun n h m => hinv (trepn 4) 8 cmp x31_hash n h m /\ zlen h = 256) (fun i h k v => let* (_, h) := hbmap_insert_nocheck vo 8 cmp x31_hash (kas i) (va i) h k v in Ret h)
    (hbmap_contains cmp bs x31_hash) (hbmap_get vo cmp bs x31_hash) text N ltac:(lia) text_inj) with (q := 1) (n := Z.to_nat seeks) (rnd := rnd) (s0 := hbmap_init vo 256 : list (bmap (list Z) (tgl Z)))
    as (h & m & -> & [HI HL] & HF & HC); [| | |lia|lia|exact Hr|split; [apply (hinit_ok vo (trepn 4)); [lia|apply trepn_init; lia|lia|lia]|reflexivity]|].
  { intros n i s m dom Hn Hi [HI HL] Hm HD HX. destruct (h_nocheck 8 ltac:(lia) cmp HO HE bs HB x31_hash HH n (kas i) (va i) s m (text i) i dom Hn HI Hm) as (it & h' & EI & HI'); auto; [apply Hka; lia|apply Hva; lia|].
    rewrite EI. exists h'. split; [reflexivity|]. split; [exact HI'|]. rewrite (hnocheck_len _ _ _ _ _ _ _ _ _ _ _ EI). exact HL. }
  { intros n s m k v [H _]. now apply (h_contains 8 ltac:(lia) cmp HO HE bs HB x31_hash HH n). }
  { intros n s m k [H _]. now apply (h_get 8 ltac:(lia) cmp HO HE bs HB x31_hash HH n). }
  cbn [bind]. destruct (HC 1 h m (conj HI HL) HF) as [-> ->]. cbn [bind]. destruct (tot <? 2 ^ 31) eqn:ET; [|reflexivity]. cbn [bind].
  destruct (hfini_ok (trepn 4) (vfree_tglist Z 4) (fun fs l => fs = []) ltac:(intros n s l _; exists [], s; split; [apply free_values_no; lia|reflexivity]) 8 eq_refl cmp HO x31_hash HH [1] 1 (zlen h) m h 0)
    as (ps & L & F1 & EF & F2 & F3 & F4); [exact (hi_b _ _ _ _ _ _ _ HI)|].
  rewrite EF. cbn [bind]. exists (map (fun p => rev (map fst (fst p))) ps). split; [|split].
  - assert (HEn : enumerates cmp m (concat (map fst ps))).
    { split; [eapply Forall_impl; [|exact F2]; cbn; tauto|]. split; [exact F3|]. intros k Hk. apply F4; [|exact Hk]. pose proof (Z.mod_pos_bound (x31_hash k) (zlen h) ltac:(lia)). lia. }
    rewrite <- (enum_keys cmp text N m _ HE ltac:(lia) text_inj HF HEn). clear. induction ps as [|p ps IH]; [reflexivity|]. cbn [map concat]. rewrite map_app. apply Permutation_app; [|exact IH]. symmetry. apply Permutation_rev.
  - unfold zlen in *. rewrite map_length. lia.
  - do 4 f_equal. rewrite map_map. apply map_ext_in. intros p Hp. rewrite events_sel. reflexivity.
Qed.
End Str.

(** ---------- over numbers ---------- *)
Section Int.
Variables N seeks : Z.
Hypothesis HN : 1 <= N < 2 ^ 31.
Hypothesis Hs : 0 <= seeks.
Variable rnd : Z -> Z.
Hypothesis Hr : forall k, 0 <= rnd k.
Variable bs : (Z -> Z) -> list Z -> option Z.
Hypothesis HB : bsearch_conforming bs.
Variables ka va : Z -> talloc Z.
Hypothesis Hka : forall i, 0 <= i < N -> has_mem (ka i) = true.
Hypothesis Hva : forall i, 0 <= i < N -> has_mem (va i) = true.
Notation vo := (vops_tglist Z 4).
Notation tot := (total rnd N (Z.to_nat seeks)).
Lemma sub_eq (k k' : Z) : k - k' = 0 <-> k = k'. Proof. lia. Qed.
Lemma bench_bmap_int : test_bmap_int N seeks rnd bs ka va = if tot <? 2 ^ 31 then Ret (Some tot) else UB.
Proof using All.
  pose proof sub_order as HO. unfold test_bmap_int.
  destruct (core Z.sub sub_eq (holds (trepn 4) 4 Z.sub) (fun i b k v => let* (_, b) := bmap_insert vo 4 Z.sub bs (ka i) (va i) b k v in Ret b)
    (fun b k => Ret (bmap_contains Z.sub bs b k)) (bmap_get vo Z.sub bs) (fun i => i) N ltac:(lia) ltac:(auto)) with (q := 1) (n := Z.to_nat seeks) (rnd := rnd) (s0 := bmap_init vo : bmap Z (tgl Z))
    as (b & m & -> & HH & HF & HC); [| | |lia|lia|exact Hr|apply binit; [apply trepn_init; lia|lia]|].
  { intros n i s m dom Hn Hi HH Hm _ _. destruct (b_insert 4 ltac:(lia) Z.sub HO sub_eq bs HB n (ka i) (va i) s m i i Hn HH Hm) as (ss & b' & -> & HH'); [apply Hka; lia|apply Hva; lia|]. exists b'. auto. }
  { intros n s m k v. now apply (b_contains 4 ltac:(lia) Z.sub HO sub_eq bs HB). }
  { intros n s m k. now apply (b_get 4 ltac:(lia) Z.sub HO sub_eq bs HB). }
  cbn [bind]. destruct (HC 1 b m HH HF) as [-> ->]. cbn [bind]. destruct (tot <? 2 ^ 31); reflexivity.
Qed.
Lemma bench_hbmap_int : test_hbmap_int N seeks rnd bs ka va = if tot <? 2 ^ 31 then Ret (Some tot) else UB.
Proof using All.
  pose proof sub_order as HO. unfold test_hbmap_int.
  destruct (core Z.sub sub_eq (hinv (trepn 4) 4 Z.sub u32) (fun i h k v => let* (_, h) := hbmap_insert vo 4 Z.sub bs u32 (ka i) (va i) h k v in Ret h)
    (hbmap_contains Z.sub bs u32) (hbmap_get vo Z.sub bs u32) (fun i => i) N ltac:(lia) ltac:(auto)) with (q := 1) (n := Z.to_nat seeks) (rnd := rnd) (s0 := hbmap_init vo 256 : list (bmap Z (tgl Z)))
    as (h & m & -> & HI & HF & HC); [| | |lia|lia|exact Hr|apply (hinit_ok vo (trepn 4)); [lia|apply trepn_init; lia|lia|lia]|].
  { intros n i s m dom Hn Hi HI Hm HD HX. destruct (h_insert 4 ltac:(lia) Z.sub HO sub_eq bs HB u32 u32_ok n (ka i) (va i) s m i i dom Hn HI Hm) as (it & h' & -> & HI'); auto. exists h'. auto. }
  { intros n s m k v. now apply (h_contains 4 ltac:(lia) Z.sub HO sub_eq bs HB u32 u32_ok). }
  { intros n s m k. now apply (h_get 4 ltac:(lia) Z.sub HO sub_eq bs HB u32 u32_ok). }
  cbn [bind]. destruct (HC 1 h m HI HF) as [-> ->]. cbn [bind]. destruct (tot <? 2 ^ 31); reflexivity.
Qed.
End Int.

(** C101: for every number of items and seeks, all random numbers and whatever text libc makes of a number (in
    decimal), no assertion fails; the result is the sum of the values looked up, or the addition overflows.
    At the end every key in the map is freed once: the second copy of "0" is lost. *)
Theorem c101_bmap_bench :
  forall N seeks rnd mag text bs kas va, 1 <= N < 2 ^ 31 -> 0 <= seeks -> (forall k, 0 <= rnd k) -> (forall a b, 0 < mag a b) ->
    (forall i, 0 <= i < N -> is_decimal i (text i)) -> bsearch_conforming bs ->
    (forall i, 0 <= i <= N -> has_mem (kas i) = true) -> (forall i, 0 <= i <= N -> has_mem (va i) = true) ->
    if total rnd N (Z.to_nat seeks) <? 2 ^ 31
    then exists ks, Permutation ks (map text (upto N)) /\
           test_bmap N seeks rnd mag text bs kas va = Ret (Some (total rnd N (Z.to_nat seeks), map FreeKey ks ++ [FreeArr AKeys; FreeArr AValues]))
    else test_bmap N seeks rnd mag text bs kas va = UB.
Proof. intros. now apply bench_bmap. Qed.
Print Assumptions c101_bmap_bench.
Theorem c101_hbmap_bench :
  forall N seeks rnd mag text bs kas va, 1 <= N < 2 ^ 31 -> 0 <= seeks -> (forall k, 0 <= rnd k) -> (forall a b, 0 < mag a b) ->
    (forall i, 0 <= i < N -> is_decimal i (text i)) -> bsearch_conforming bs ->
    (forall i, 0 <= i <= N -> has_mem (kas i) = true) -> (forall i, 0 <= i <= N -> has_mem (va i) = true) ->
    if total rnd N (Z.to_nat seeks) <? 2 ^ 31
    then exists kss, Permutation (concat kss) (map text (upto N)) /\ zlen kss = 256 /\
           test_hbmap N seeks rnd mag text bs kas va = Ret (Some (total rnd N (Z.to_nat seeks), concat (map (fun ks => map FreeKey ks ++ [FreeArr AKeys; FreeArr AValues]) kss)))
    else test_hbmap N seeks rnd mag text bs kas va = UB.
Proof. intros. now apply bench_hbmap. Qed.
Print Assumptions c101_hbmap_bench.
Theorem c101_int_bench :
  forall N seeks rnd bs ka va, 1 <= N < 2 ^ 31 -> 0 <= seeks -> (forall k, 0 <= rnd k) -> bsearch_conforming bs ->
    (forall i, 0 <= i < N -> has_mem (ka i) = true) -> (forall i, 0 <= i < N -> has_mem (va i) = true) ->
    let r := if total rnd N (Z.to_nat seeks) <? 2 ^ 31 then Ret (Some (total rnd N (Z.to_nat seeks))) else UB in
    test_bmap_int N seeks rnd bs ka va = r /\ test_hbmap_int N seeks rnd bs ka va = r.
Proof. intros. split; [now apply bench_bmap_int|now apply bench_hbmap_int]. Qed.
Print Assumptions c101_int_bench.

(** with the sizes in the files: bmap_bench.c cannot overflow *)
Lemma total_le rnd N n : 1 <= N -> total rnd N n <= Z.of_nat n * (N - 1).
Proof. intros HN. induction n as [|n IH]; [unfold total; cbn; lia|]. rewrite total_S. pose proof (Z.mod_pos_bound (rnd (Z.of_nat n)) N ltac:(lia)). nia. Qed.
Theorem c101_bmap_bench_10000 :
  forall rnd mag text bs kas va, (forall k, 0 <= rnd k) -> (forall a b, 0 < mag a b) ->
    (forall i, 0 <= i < 10000 -> is_decimal i (text i)) -> bsearch_conforming bs ->
    (forall i, 0 <= i <= 10000 -> has_mem (kas i) = true) -> (forall i, 0 <= i <= 10000 -> has_mem (va i) = true) ->
    exists res fs, test_bmap 10000 10000 rnd mag text bs kas va = Ret (Some (res, fs)) /\ 0 <= res <= 99990000.
Proof.
  intros rnd mag text bs kas va Hr Hm Ht HB Hk Hv. pose proof (c101_bmap_bench 10000 10000 rnd mag text bs kas va ltac:(lia) ltac:(lia) Hr Hm Ht HB Hk Hv) as H.
  pose proof (total_le rnd 10000 (Z.to_nat 10000) ltac:(lia)) as HL. pose proof (total_pos rnd 10000 (Z.to_nat 10000) ltac:(lia)) as HP. rewrite Z2Nat.id in HL by lia.
  set (t := total rnd 10000 (Z.to_nat 10000)) in *. clearbody t. replace (t <? 2 ^ 31) with true in H by lia. destruct H as (ks & _ & E). exists t. eexists. split; [exact E|]. lia.
Qed.
Print Assumptions c101_bmap_bench_10000.
(** hbmap_bench.c, with a million items, overflows its int as soon as the random numbers are 214749 on average *)
Theorem c101_hbmap_bench_1000000_refuted :
  forall rnd mag text bs kas va, (forall k, 214749 <= rnd k < 1000000) -> (forall a b, 0 < mag a b) ->
    (forall i, 0 <= i < 1000000 -> is_decimal i (text i)) -> bsearch_conforming bs ->
    (forall i, 0 <= i <= 1000000 -> has_mem (kas i) = true) -> (forall i, 0 <= i <= 1000000 -> has_mem (va i) = true) ->
    test_hbmap 1000000 10000 rnd mag text bs kas va = UB.
Proof.
  intros rnd mag text bs kas va Hr Hm Ht HB Hk Hv.
  pose proof (c101_hbmap_bench 1000000 10000 rnd mag text bs kas va ltac:(lia) ltac:(lia) ltac:(intros k; specialize (Hr k); lia) Hm Ht HB Hk Hv) as H.
  assert (HG : forall n, Z.of_nat n * 214749 <= total rnd 1000000 n).
  { induction n as [|n IH]; [unfold total; cbn; lia|]. rewrite total_S. specialize (Hr (Z.of_nat n)). rewrite Z.mod_small by lia. lia. }
  specialize (HG (Z.to_nat 10000)). rewrite Z2Nat.id in HG by lia. set (t := total rnd 1000000 (Z.to_nat 10000)) in *. clearbody t. now replace (t <? 2 ^ 31) with false in H by lia.
Qed.
Print Assumptions c101_hbmap_bench_1000000_refuted.
(** runs of the model: texts of the numbers below 12 *)
Definition text12 (i : Z) : list Z := if i <? 10 then [48 + i] else [49; 38 + i].
Example c101_example :
  test_bmap 12 3 (fun k => 7 * k + 11) (fun _ _ => 5) text12 (fun f l => lsearch f 0 l) (fun _ => Some (fun _ => [])) (fun _ => Some (fun _ => 0)) =
    Ret (Some (18, map FreeKey [[57]; [56]; [55]; [54]; [53]; [52]; [51]; [50]; [49; 49]; [49; 48]; [49]; [48]] ++ [FreeArr AKeys; FreeArr AValues])) /\
  match test_hbmap 12 3 (fun k => 7 * k + 11) (fun _ _ => 5) text12 (fun f l => lsearch f 0 l) (fun _ => Some (fun _ => [])) (fun _ => Some (fun _ => 0)) with
  | Ret (Some (r, fs)) => r = 18 /\ zlen fs = 12 + 512
  | _ => False
  end /\
  test_hbmap_int 12 3 (fun k => 7 * k + 11) (fun f l => lsearch f 0 l) (fun _ => Some (fun _ => 0)) (fun _ => Some (fun _ => 0)) = Ret (Some 18) /\
  total (fun k => 7 * k + 11) 12 3 = 18.
Proof. vm_compute. auto. Qed.
