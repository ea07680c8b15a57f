(** Proofs about the stack allocator. *)
From Coq Require Import FinFun.
From Verif Require Import Base Bits M_bitarray S_bitarray P_bitarray M_ssalloc D_ssalloc S_ssalloc.
Ltac Zify.zify_post_hook ::= Z.div_mod_to_equations.

Definition bt (u : list Z) (i : Z) : bool := znth false (bits u) i.
Lemma bits_zlen u : zlen (bits u) = 8 * zlen u.
Proof. apply bits_len. exact (bin_len 8). Qed.
Lemma get_bt u i : 0 <= i < 8 * zlen u -> BA_GET u i = Ret (b2c (bt u i)).
Proof. exact (get_ok u i). Qed.
Lemma set_bt u i c : 0 <= i < 8 * zlen u -> bytes u ->
  exists u', (if c =? 0 then BA_SET_FALSE u i else BA_SET_TRUE u i) = Ret u' /\ bytes u' /\ zlen u' = zlen u /\ forall j, 0 <= j -> bt u' j = if j =? i then negb (c =? 0) else bt u j.
Proof.
  intros Hi B. destruct (set_ok u i c Hi B) as (u' & R & B' & L & E). exists u'. repeat split; auto. intros j Hj. unfold bt. rewrite E, znth_upd by (rewrite ?bits_zlen; lia). reflexivity.
Qed.
Lemma byte_full u b : bytes u -> 0 <= b < zlen u -> (forall k, 0 <= k < 8 -> bt u (8 * b + k) = true) <-> znth 0 u b = 255.
Proof.
  intros B Hb. assert (BT : forall k, 0 <= k < 8 -> bt u (8 * b + k) = Z.testbit (znth 0 u b) k).
  { intros k Hk. unfold bt. rewrite bit_at by lia. replace ((8 * b + k) / 8) with b by lia. replace ((8 * b + k) mod 8) with k by lia. reflexivity. }
  assert (Bv : byte (znth 0 u b)) by (unfold bytes in B; rewrite Forall_forall in B; apply B, znth_In; lia).
  split.
  - intros H. apply Z.bits_inj'. intros n Hn. change 255 with (Z.ones 8). destruct (Z_lt_le_dec n 8).
    + rewrite Z.ones_spec_low by lia. rewrite <- BT by lia. apply H. lia.
    + rewrite Z.ones_spec_high by lia. apply testbit_byte; auto.
  - intros E k Hk. rewrite BT by lia. rewrite E. change 255 with (Z.ones 8). apply Z.ones_spec_low. lia.
Qed.
Lemma find_bit_ok u : forall n i, 0 <= i -> i + Z.of_nat n <= 8 * zlen u ->
  (exists j, find_bit n u i = Ret (Some j) /\ i <= j < i + Z.of_nat n /\ bt u j = false) \/ (find_bit n u i = Ret None /\ forall j, i <= j < i + Z.of_nat n -> bt u j = true).
Proof.
  induction n as [|n IH]; intros i I0 I1; [right; split; [reflexivity|intros; lia]|]. cbn [find_bit]. rewrite get_bt by lia. cbn [bind]. destruct (bt u i) eqn:T; cbn [b2c Z.eqb].
  - destruct (IH (i + 1)) as [(j & E & H1 & H2)|(E & H)]; [lia|lia|left; exists j; rewrite E; repeat split; auto; lia|]. right. split; [exact E|]. intros j Hj. destruct (Z.eq_dec j i) as [->|]; [auto|]. apply H. lia.
  - left. exists i. repeat split; auto; lia.
Qed.
Lemma find_elem_ok u : bytes u -> forall n b, 0 <= b -> b + Z.of_nat n <= zlen u ->
  (exists j, find_elem n u b = Ret (Some j) /\ 8 * b <= j < 8 * (b + Z.of_nat n) /\ bt u j = false) \/ (find_elem n u b = Ret None /\ forall j, 8 * b <= j < 8 * (b + Z.of_nat n) -> bt u j = true).
Proof.
  intros B. induction n as [|n IH]; intros b B0 B1; [right; split; [reflexivity|intros; lia]|]. cbn [find_elem]. rewrite (zread_ok 0) by lia. cbn [bind].
  assert (R : (forall k, 0 <= k < 8 -> bt u (8 * b + k) = true) -> (exists j, find_elem n u (b + 1) = Ret (Some j) /\ 8 * b <= j < 8 * (b + Z.of_nat (S n)) /\ bt u j = false) \/ (find_elem n u (b + 1) = Ret None /\ forall j, 8 * b <= j < 8 * (b + Z.of_nat (S n)) -> bt u j = true)).
  { intros F. destruct (IH (b + 1)) as [(j & E & H1 & H2)|(E & H)]; [lia|lia|left; exists j; repeat split; auto; lia|]. right. split; [exact E|]. intros j Hj. destruct (Z_lt_le_dec j (8 * (b + 1))); [|apply H; lia]. replace j with (8 * b + (j - 8 * b)) by lia. apply F. lia. }
  destruct (Z.eqb_spec (znth 0 u b) 255) as [E|E]; [apply R; apply byte_full; auto; lia|].
  destruct (find_bit_ok u 8 (8 * b)) as [(j & E1 & H1 & H2)|(E1 & H)]; [lia|lia| |].
  - rewrite E1. cbn [bind]. left. exists j. repeat split; auto; lia.
  - rewrite E1. cbn [bind]. apply R. intros k Hk. apply H. lia.
Qed.
Lemma shrink_ok u : forall n t, t = Z.of_nat n -> t <= 8 * zlen u -> (forall i, t <= i < 8 * zlen u -> bt u i = false) ->
  exists t', shrink n u t = Ret t' /\ 0 <= t' <= t /\ (forall i, t' <= i < 8 * zlen u -> bt u i = false) /\ (t' = 0 \/ bt u (t' - 1) = true).
Proof.
  induction n as [|n IH]; intros t Ht T1 H; cbn [shrink].
  - exists t. repeat split; auto; lia.
  - replace (t =? 0) with false by lia. rewrite get_bt by lia. cbn [bind]. destruct (bt u (t - 1)) eqn:T; cbn [b2c Z.eqb].
    + exists t. repeat split; auto; lia.
    + destruct (IH (t - 1)) as (t' & E & H1 & H2 & H3); [lia|lia| |exists t'; repeat split; auto; lia].
      intros i Hi. destruct (Z.eq_dec i (t - 1)) as [->|]; [auto|]. apply H. lia.
Qed.
Section Pool.
Variables (M E : Z).
Hypothesis HM : 0 < M < 2 ^ 64.
Hypothesis HE : 0 < E.
Definition inv (p : pool) (live : list Z) : Prop :=
  zlen (used p) = BA_SIZE_REQUIRED M /\ bytes (used p) /\ 0 <= top p <= M /\
  (forall i, top p <= i < 8 * zlen (used p) -> bt (used p) i = false) /\ (top p = 0 \/ bt (used p) (top p - 1) = true) /\
  NoDup live /\ (forall d, In d live <-> exists k, 0 <= k < M /\ d = k * E /\ bt (used p) k = true) /\ avail p = M - zlen live.
Lemma size_M (u : list Z) : zlen u = BA_SIZE_REQUIRED M -> M <= 8 * zlen u /\ 8 * (M / 8) <= M /\ M / 8 <= zlen u.
Proof. intros ->. pose proof (proj2 (size_ok M (BA_SIZE_REQUIRED M) ltac:(lia)) ltac:(lia)). lia. Qed.
Definition all : list Z := map (fun k => Z.of_nat k * E) (seq 0 (Z.to_nat M)).
Lemma all_len : length all = Z.to_nat M.
Proof. unfold all. now rewrite map_length, seq_length. Qed.
Lemma all_in d : In d all <-> block M E d.
Proof.
  unfold all, block. rewrite in_map_iff. split.
  - intros (k & <- & Hk). apply in_seq in Hk. exists (Z.of_nat k). lia.
  - intros (k & Hk & ->). exists (Z.to_nat k). split; [rewrite Z2Nat.id by lia; lia|apply in_seq; lia].
Qed.
Lemma all_nodup : NoDup all.
Proof. unfold all. apply FinFun.Injective_map_NoDup; [|apply seq_NoDup]. intros a b H. apply Z.mul_reg_r in H; lia. Qed.
Lemma live_in p live d : inv p live -> In d live -> block M E d.
Proof. intros (_ & _ & _ & _ & _ & _ & H & _) Hd. apply H in Hd as (k & K1 & K2 & _). exists k. auto. Qed.
Lemma live_le p live : inv p live -> zlen live <= M.
Proof.
  intros I. assert (N : NoDup live) by apply I. assert (H : incl live all) by (intros d Hd; apply all_in; exact (live_in p live d I Hd)).
  pose proof (NoDup_incl_length N H) as L. rewrite all_len in L. unfold zlen. lia.
Qed.
Lemma full_len p live : inv p live -> (forall k, 0 <= k < M -> bt (used p) k = true) -> zlen live = M.
Proof.
  intros I F. pose proof (live_le p live I). assert (H2 : incl all live) by (intros d Hd; apply all_in in Hd as (k & K1 & K2); apply I; exists k; auto).
  pose proof (NoDup_incl_length all_nodup H2) as L. rewrite all_len in L. unfold zlen in *. lia.
Qed.
Lemma len_full p live : inv p live -> zlen live = M -> forall d, block M E d -> In d live.
Proof.
  intros I L d Hd. assert (N : NoDup live) by apply I. assert (H : incl live all) by (intros x Hx; apply all_in; exact (live_in p live x I Hx)).
  apply (@NoDup_length_incl _ live all N); [rewrite all_len; unfold zlen in L; lia|exact H|now apply all_in].
Qed.
Lemma set_inv p live k t : inv p live -> 0 <= k < M -> bt (used p) k = false -> 0 <= t <= M -> (forall i, t <= i < 8 * zlen (used p) -> i <> k /\ bt (used p) i = false) ->
  (t = k + 1 \/ t = 0 \/ bt (used p) (t - 1) = true) ->
  exists u', ssa_set E (mkPool (used p) t (avail p)) k = Ret (mkPool u' t (avail p - 1), Some (k * E)) /\ inv (mkPool u' t (avail p - 1)) (k * E :: live) /\ ~ In (k * E) live.
Proof.
  intros I Hk Bk Ht Hi Htop. pose proof (live_le p live I) as Le. destruct I as (Lu & Bu & Tp & Hi0 & Tb & Nd & Hin & Av). destruct (size_M _ Lu) as (S1 & _ & _).
  destruct (set_bt (used p) k 1 ltac:(lia) Bu) as (u' & R & B' & L' & Bt). change (1 =? 0) with false in *. cbv iota in R. exists u'. unfold ssa_set. cbn [used top avail]. rewrite R. cbn [bind].
  assert (NIn : ~ In (k * E) live) by (intros Hd; apply Hin in Hd as (k' & K1 & K2 & K3); apply Z.mul_reg_r in K2; [subst; congruence|lia]).
  assert (Lt : zlen live < M).
  { assert (N : NoDup (k * E :: live)) by now constructor. assert (H : incl (k * E :: live) all).
    { intros d [<-|Hd]; apply all_in; [exists k; auto|]. apply Hin in Hd as (k' & K1 & K2 & _). exists k'. auto. }
    pose proof (NoDup_incl_length N H) as L. rewrite all_len in L. unfold zlen. cbn [length] in L. lia. }
  assert (Ea : u64 (avail p - 1) = avail p - 1) by (apply u64_id; pose proof (zlen_nonneg live); lia).
  split; [now rewrite Ea|]. split; [|exact NIn]. unfold inv. cbn [used top avail]. rewrite L'. split; [auto|]. split; [auto|]. split; [auto|]. split; [|split; [|split; [|split]]].
  - intros i Hii. rewrite Bt by lia. destruct (Hi i Hii) as [N1 N2]. replace (i =? k) with false by lia. auto.
  - destruct Htop as [->|[->|Htop]]; [right|auto|].
    + rewrite Bt by lia. replace (k + 1 - 1 =? k) with true by lia. reflexivity.
    + destruct (Z.eq_dec t 0); [auto|right]. rewrite Bt by lia. destruct (t - 1 =? k); auto.
  - now constructor.
  - intros d. split.
    + intros [<-|Hd]; [exists k; repeat split; try lia; rewrite Bt by lia; now rewrite Z.eqb_refl|]. apply Hin in Hd as (k' & K1 & K2 & K3). exists k'. repeat split; auto; try lia. rewrite Bt by lia. rewrite K3. now destruct (k' =? k).
    + intros (k' & K1 & -> & K3). rewrite Bt in K3 by lia. destruct (Z.eqb_spec k' k) as [->|N]; [now left|right]. apply Hin. exists k'. auto.
  - zl. lia.
Qed.
Lemma alloc_ok p live size : inv p live ->
  (exists p' d, ssa_alloc M E p size = Ret (p', Some d) /\ size <= E /\ block M E d /\ ~ In d live /\ inv p' (d :: live)) \/
  (ssa_alloc M E p size = Ret (p, None) /\ (E < size \/ zlen live = M \/ (M mod 8 <> 0 /\ top p = M /\ forall k, 0 <= k < 8 * (M / 8) -> In (k * E) live))).
Proof.
  intros I. unfold ssa_alloc. destruct (Z.ltb_spec E size) as [Sz|Sz]; [right; auto|]. pose proof I as (Lu & Bu & Tp & Hi0 & Tb & Nd & Hin & Av). destruct (size_M _ Lu) as (S1 & S2 & S3).
  destruct (Z.ltb_spec (top p) M) as [T|T].
  - left. cbv zeta. cbn [top used avail]. rewrite (u64_id (top p + 1)) by lia. rewrite u64_id by lia. replace (top p + 1 - 1) with (top p) by lia.
    destruct (set_inv p live (top p) (top p + 1) I) as (u' & R & I' & N); [lia|apply Hi0; lia|lia| |auto|].
    { intros i Hii. split; [lia|apply Hi0; lia]. }
    rewrite R. eexists _, _. split; [reflexivity|]. split; [auto|]. split; [exists (top p); split; [lia|reflexivity]|]. auto.
  - assert (Et : top p = M) by lia. pose proof (live_le p live I) as Le. destruct (Z.eqb_spec (avail p) 0) as [A|A]; cbn [negb]; [right; split; [reflexivity|]; right; left; lia|].
    destruct (find_elem_ok (used p) Bu (Z.to_nat (M / 8)) 0) as [(j & R & H1 & H2)|(R & H)]; [lia|lia| |].
    + rewrite R. cbn [bind]. left. destruct (set_inv p live j (top p) I) as (u' & R2 & I' & N); [lia|auto|lia| |right; exact Tb|].
      { intros i Hii. split; [lia|apply Hi0; lia]. }
      replace (mkPool (used p) (top p) (avail p)) with p in R2 by (now destruct p). rewrite R2. eexists _, _. split; [reflexivity|]. split; [auto|]. split; [exists j; split; [lia|reflexivity]|]. auto.
    + rewrite R. cbn [bind]. right. split; [reflexivity|]. destruct (Z.eq_dec (M mod 8) 0) as [Z8|Z8].
      * exfalso. assert (zlen live = M) by (apply (full_len p); [auto|intros k Hk; apply H; lia]). lia.
      * right. right. split; [auto|]. split; [auto|]. intros k Hk. apply Hin. exists k. repeat split; try lia. apply H. lia.
Qed.
Lemma remove_len d (l : list Z) : NoDup l -> In d l -> zlen (remove Z.eq_dec d l) = zlen l - 1.
Proof.
  induction l as [|x l IH]; intros N Hd; [destruct Hd|]. inversion N as [|? ? Nx Nl]; subst. cbn [remove]. destruct (Z.eq_dec d x) as [->|D].
  - rewrite notin_remove by auto. zl. lia.
  - destruct Hd as [->|Hd]; [congruence|]. rewrite !zlen_cons, IH by auto. lia.
Qed.
Lemma remove_nodup d (l : list Z) : NoDup l -> NoDup (remove Z.eq_dec d l).
Proof.
  induction l as [|x l IH]; intros N; [constructor|]. inversion N as [|? ? Nx Nl]; subst. cbn [remove]. destruct (Z.eq_dec d x); [auto|]. constructor; [|auto]. intros H. apply in_remove in H. tauto.
Qed.
Lemma rem_mod d : Z.rem d E = 0 <-> d mod E = 0.
Proof. split; intros H; [apply Z.rem_divide in H; [|lia]; now apply Z.mod_divide; [lia|]|apply Z.mod_divide in H; [|lia]; now apply Z.rem_divide; [lia|]]. Qed.
Lemma free_ok p live d : inv p live -> ptr_ok E (Free d) -> exists p', ssa_free M E p d = Ret p' /\ inv p' (remove Z.eq_dec d live) /\ (~ In d live -> p' = p).
Proof.
  intros I Ok. unfold ssa_free. cbv zeta. pose proof I as (Lu & Bu & Tp & Hi0 & Tb & Nd & Hin & Av). destruct (size_M _ Lu) as (S1 & S2 & S3).
  assert (Skip : ~ In d live -> exists p', Ret p = Ret p' /\ inv p' (remove Z.eq_dec d live) /\ (~ In d live -> p' = p)) by (intros N; exists p; rewrite notin_remove by auto; auto).
  assert (Gi : ssa_getidx E d = if d mod E =? 0 then d / E else -1).
  { unfold ssa_getidx. pose proof (rem_mod d) as RM. destruct (Z.eqb_spec (Z.rem d E) 0), (Z.eqb_spec (d mod E) 0); try tauto.
    apply Z.mod_divide in e0 as [k ->]; [|lia]. now rewrite Z.quot_mul, Z.div_mul by lia. }
  rewrite Gi. destruct (Z.eqb_spec (d mod E) 0) as [D|D].
  2: { apply Skip. intros Hd. apply Hin in Hd as (k & _ & -> & _). rewrite Z.mod_mul in D; lia. }
  apply Z.mod_divide in D as [k ->]; [|lia]. rewrite Z.div_mul by lia.
  destruct (Z.eqb_spec k (-1)) as [K1|K1]; cbn [orb]; [apply Skip; intros Hd; apply Hin in Hd as (k' & K2 & K3 & _); apply Z.mul_reg_r in K3; lia|].
  destruct (Z.leb_spec M k) as [K2|K2]; [apply Skip; intros Hd; apply Hin in Hd as (k' & K3 & K4 & _); apply Z.mul_reg_r in K4; lia|].
  assert (K0 : 0 <= k).
  { cbn [ptr_ok] in Ok. destruct Ok as [Ok|[Ok|Ok]]; [nia|rewrite Z.mod_mul in Ok; lia|]. exfalso. apply K1. replace (- E) with (-1 * E) in Ok by lia. apply Z.mul_reg_r in Ok; lia. }
  replace (k <? 0) with false by lia. rewrite get_bt by lia. cbn [bind]. destruct (bt (used p) k) eqn:T; cbn [b2c Z.eqb].
  2: { apply Skip. intros Hd. apply Hin in Hd as (k' & K3 & K4 & K5). apply Z.mul_reg_r in K4; [|lia]. subst. congruence. }
  assert (Hd : In (k * E) live) by (apply Hin; exists k; repeat split; auto; lia).
  destruct (set_bt (used p) k 0 ltac:(lia) Bu) as (u' & R & B' & L' & Bt). change (0 =? 0) with true in *. cbv iota in R. cbn [negb] in Bt. rewrite R. cbn [bind].
  destruct (shrink_ok u' (Z.to_nat (top p)) (top p)) as (t' & Rt & T1 & T2 & T3); [lia|lia| |].
  { intros i Hii. rewrite Bt by lia. destruct (i =? k); [reflexivity|]. apply Hi0. lia. }
  rewrite Rt. cbn [bind]. eexists. split; [reflexivity|]. split; [|tauto]. pose proof (remove_len _ _ Nd Hd) as RL. pose proof (live_le p live I) as Le. pose proof (zlen_nonneg (remove Z.eq_dec (k * E) live)).
  unfold inv. cbn [used top avail]. rewrite L'. split; [auto|]. split; [auto|]. split; [lia|]. split; [rewrite <- L'; exact T2|]. split; [exact T3|]. split; [now apply remove_nodup|]. split; [|rewrite u64_id; lia].
  intros d. split.
  - intros Hd'. apply in_remove in Hd' as [H1 H2]. apply Hin in H1 as (k' & A1 & -> & A3). exists k'. repeat split; auto; try lia. rewrite Bt by lia. destruct (Z.eqb_spec k' k); [subst; congruence|auto].
  - intros (k' & A1 & -> & A3). rewrite Bt in A3 by lia. destruct (Z.eqb_spec k' k) as [->|N]; [discriminate|]. apply in_in_remove; [intros Eq; apply Z.mul_reg_r in Eq; lia|]. apply Hin. exists k'. auto.
Qed.
Lemma init_inv : inv (ssa_init M) [].
Proof.
  assert (P : 0 <= BA_SIZE_REQUIRED M) by (pose proof (proj1 (size_ok M (BA_SIZE_REQUIRED M) ltac:(lia))); unfold BA_SIZE_REQUIRED; destruct (M mod 8 =? 0); lia).
  assert (F : forall i, 0 <= i -> bt (zrepeat 0 (BA_SIZE_REQUIRED M)) i = false).
  { intros i Hi. unfold bt. destruct (Z_lt_le_dec i (8 * zlen (zrepeat 0 (BA_SIZE_REQUIRED M)))) as [L|L].
    - rewrite bit_at by lia. rewrite zlen_zrepeat in L by lia. rewrite znth_zrepeat by lia. apply Z.bits_0.
    - apply znth_overflow. rewrite bits_zlen. lia. }
  unfold inv, ssa_init. cbn [used top avail]. rewrite zlen_zrepeat by lia. split; [reflexivity|]. split; [|split; [lia|split; [|split; [auto|split; [constructor|split]]]]].
  - unfold bytes, zrepeat. apply Forall_forall. intros x Hx. apply repeat_spec in Hx. subst. unfold byte. lia.
  - intros i Hi. apply F. lia.
  - intros d. split; [intros []|]. intros (k & K1 & _ & K2). rewrite F in K2 by lia. discriminate.
  - change (zlen (@nil Z)) with 0. lia.
Qed.
Lemma run_inv (early : bool) : (early = false -> M mod 8 = 0) -> forall ops p live, inv p live -> Forall (ptr_ok E) ops ->
  exists rs p' live', run M E p ops = Ret (rs, p') /\ obeys early M E live ops rs live' /\ inv p' live'.
Proof.
  intros M8. induction ops as [|[size|d] ops IH]; intros p live I Fa; [exists [], p, live; split; [reflexivity|split; [apply o_nil|exact I]]|..]; inversion Fa as [|? ? Ok Fa']; subst; cbn [run].
  - destruct (alloc_ok p live size I) as [(p1 & d & R & Sz & Bl & Nin & I1)|(R & Why)]; rewrite R; cbn [bind].
    + destruct (IH p1 (d :: live) I1 Fa') as (rs & p' & live' & R' & O & I'). rewrite R'. cbn [bind]. exists (Some d :: rs), p', live'. split; [reflexivity|]. split; [now constructor|exact I'].
    + destruct (IH p live I Fa') as (rs & p' & live' & R' & O & I'). rewrite R'. cbn [bind]. exists (None :: rs), p', live'. split; [reflexivity|]. split; [|exact I']. constructor; [|exact O].
      destruct Why as [W|[W|(W & _)]]; [auto|auto|]. right. right. destruct early; [reflexivity|]. tauto.
  - destruct (free_ok p live d I Ok) as (p1 & R & I1 & _). rewrite R. cbn [bind]. destruct (IH p1 _ I1 Fa') as (rs & p' & live' & R' & O & I'). exists rs, p', live'. split; [exact R'|]. split; [now constructor|exact I'].
Qed.
Lemma run_ok early ops : (early = false -> M mod 8 = 0) -> Forall (ptr_ok E) ops ->
  exists rs p live, run M E (ssa_init M) ops = Ret (rs, p) /\ obeys early M E [] ops rs live /\ NoDup live /\ Forall (block M E) live /\ avail p = M - zlen live /\
    (forall d, ptr_ok E (Free d) -> ~ In d live -> ssa_free M E p d = Ret p).
Proof.
  intros M8 Fa. destruct (run_inv early M8 ops _ [] init_inv Fa) as (rs & p & live & R & O & I). exists rs, p, live. split; [exact R|]. split; [exact O|]. split; [apply I|]. split; [|split; [apply I|]].
  - apply Forall_forall. intros d Hd. exact (live_in p live d I Hd).
  - intros d Ok N. destruct (free_ok p live d I Ok) as (p' & R' & _ & Eq). rewrite R'. now rewrite Eq.
Qed.
End Pool.
Lemma accepted_even M : accepted M = true <-> Z.even M = true.
Proof.
  unfold accepted. destruct (Z.eqb_spec (- M) M) as [Z0|Z0].
  - assert (M = 0) by lia. subst. split; reflexivity.
  - change 1 with (2 ^ 1 - 1). rewrite land_mask by lia. change (2 ^ 1) with 2. rewrite Zmod_even. destruct (Z.even M); split; auto; discriminate.
Qed.
