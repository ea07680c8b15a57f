(** Proofs about hbmap. *)
From Coq Require Import Sorting.
From Verif Require Import Base Cstr Bits M_tglist S_tglist D_tglist P_tglist P_tgilist M_bmap S_bmap D_bmap P_bmap.
Ltac Zify.zify_post_hook ::= Z.div_mod_to_equations.

(** iterators *)
Lemma it_lor i j : 0 <= i -> 0 <= j < 2 ^ 32 -> Z.lor (i * 2 ^ 32) j = i * 2 ^ 32 + j.
Proof.
  intros Hi Hj. assert (Z.land (i * 2 ^ 32) j = 0) as E; [|now rewrite Z.add_nocarry_lxor, Z.lxor_lor by exact E].
  rewrite <- (Z.shiftl_mul_pow2 i 32) by lia. apply Z.bits_inj'. intros n Hn. rewrite Z.land_spec, Z.bits_0.
  destruct (Z_lt_le_dec n 32); [rewrite Z.shiftl_spec_low by lia; reflexivity|].
  replace (Z.testbit j n) with false; [apply andb_false_r|]. symmetry. destruct (Z.eq_dec j 0) as [->|]; [apply Z.bits_0|].
  apply Z.bits_above_log2; [lia|]. apply Z.log2_lt_pow2; [lia|]. apply Z.lt_le_trans with (2 ^ 32); [lia|]. apply Z.pow_le_mono_r; lia.
Qed.
Lemma it_mk i : 0 <= i < 2 ^ 32 -> it_makebucket i = i * 2 ^ 32.
Proof. intros H. unfold it_makebucket. rewrite Z.shiftl_mul_pow2 by lia. apply u64_id. lia. Qed.
Lemma it_b i j : 0 <= j < 2 ^ 32 -> it_bucket (i * 2 ^ 32 + j) = i.
Proof. intros H. unfold it_bucket. rewrite Z.shiftr_div_pow2 by lia. rewrite Z.div_add_l by lia. rewrite Z.div_small; lia. Qed.
Lemma it_i i j : 0 <= j < 2 ^ 32 -> it_index (i * 2 ^ 32 + j) = j.
Proof.
  intros H. unfold it_index. change 4294967295 with (Z.ones 32). rewrite Z.land_ones by lia.
  rewrite Z.add_comm, Z.mod_add by lia. apply Z.mod_small. lia.
Qed.
Lemma it_split it : 0 <= it < 2 ^ 64 -> exists i j, it = i * 2 ^ 32 + j /\ 0 <= i < 2 ^ 32 /\ 0 <= j < 2 ^ 32.
Proof.
  intros H. exists (it / 2 ^ 32), (it mod 2 ^ 32). change (2 ^ 64) with (2 ^ 32 * 2 ^ 32) in H. set (w := 2 ^ 32) in *. assert (Hw : w = 4294967296) by reflexivity. clearbody w. subst w. lia.
Qed.
Lemma it_max it : 0 <= it < 2 ^ 64 -> Z.lor it (u64 (-1)) = SIZE_MAX.
Proof.
  intros H. change (u64 (-1)) with (Z.ones 64). change SIZE_MAX with (Z.ones 64). destruct (Z.eq_dec it 0) as [->|]; [reflexivity|].
  apply Z.lor_ones_low; [lia|]. apply Z.log2_lt_pow2; lia.
Qed.

Lemma zupd {A} (h : list A) i b : 0 <= i < zlen h ->
  exists h', zwrite h i b = Ret h' /\ zlen h' = zlen h /\ zread h' i = Ret b /\ forall j, j <> i -> zread h' j = zread h j.
Proof.
  intros Hi. destruct (zsplit_mid h i Hi) as [p [x [q [-> Hp]]]]. subst i. rewrite zwrite_at by reflexivity.
  eexists; split; [reflexivity|]. split; [zl; lia|]. split; [now rewrite zread_at|].
  intros j Hj. destruct (Z_lt_le_dec j 0); [now rewrite !zread_oob by lia|]. zl.
  destruct (Z_le_gt_dec (zlen (p ++ x :: q)) j); [rewrite !zread_oob; auto; zl; lia|].
  rewrite (zread_ok b), (zread_ok b) by (zl; lia). f_equal.
  destruct (Z_lt_le_dec j (zlen p)); [now rewrite !znth_app1 by lia|]. rewrite !znth_app2 by lia. now rewrite !znth_consS by lia.
Qed.

Section H.
Context {K V St VA : Type}.
Variable vo : vops V St VA.
Variable vok : VA -> bool.
Variable vrep : Z -> St -> list V -> Prop.
Hypothesis HV : vgood vo vok vrep.
Variable ksz : Z.
Hypothesis Hksz : 1 <= ksz.
Variable cmp : K -> K -> Z.
Hypothesis HO : total_order cmp.
Variable bs : (K -> Z) -> list K -> option Z.
Hypothesis HBS : bsearch_conforming bs.
Variable hash : K -> Z.
Hypothesis HH : hash_ok cmp hash.
Notation brep := (brep vrep ksz cmp).
Notation lookup := (lookup cmp).

Record bk (n nb i : Z) (m : fmap K V) (b : bmap K St) (ks : list K) (vs : list V) : Prop := mkBk {
  bk_r : brep n b ks vs;
  bk_l : zlen ks <= 2 ^ 32 - 1;
  bk_h : Forall (fun k => hash k mod nb = i) ks;
  bk_m : forall k, hash k mod nb = i -> m k = lookup k ks vs }.
Record hinv (n : Z) (h : list (bmap K St)) (m : fmap K V) : Prop := mkHinv {
  hi_nb : 1 <= zlen h < 2 ^ 32;
  hi_b : forall i, 0 <= i < zlen h -> exists b ks vs, zread h i = Ret b /\ bk n (zlen h) i m b ks vs }.

Lemma bk_mono n n' nb i m b ks vs : bk n nb i m b ks vs -> 0 <= n' <= n -> bk n' nb i m b ks vs.
Proof. intros [H1 H2 H3 H4] Hn. split; auto. eapply brep_mono; eauto. Qed.
Lemma hinv_mono n n' h m : hinv n h m -> 0 <= n' <= n -> hinv n' h m.
Proof. intros [H1 H2] Hn. split; auto. intros i Hi. destruct (H2 i Hi) as (b & ks & vs & E & HB). exists b, ks, vs. split; [assumption|]. eapply bk_mono; eauto. Qed.
Lemma hinv_upd n n' h m i b' ks' vs' m' : hinv n' h m -> 0 <= n <= n' -> 0 <= i < zlen h ->
  bk n (zlen h) i m' b' ks' vs' -> (forall k, hash k mod zlen h <> i -> m' k = m k) ->
  exists h', zwrite h i b' = Ret h' /\ hinv n h' m' /\ zlen h' = zlen h /\ zread h' i = Ret b' /\ (forall j, j <> i -> zread h' j = zread h j).
Proof.
  intros [H1 H2] Hn Hi HB HM. destruct (zupd h i b' Hi) as (h' & -> & L & R1 & R2). exists h'. split; [reflexivity|]. split; [|auto].
  split; [now rewrite L|]. rewrite L. intros j Hj. destruct (Z.eq_dec j i) as [->|Hne]; [exists b', ks', vs'; auto|].
  destruct (H2 j Hj) as (b & ks & vs & E & HB2). exists b, ks, vs. rewrite R2 by assumption. split; [assumption|].
  apply (bk_mono n' n) in HB2; [|lia]. destruct HB2 as [B1 B2 B3 B4]. split; auto. intros k Hk. rewrite HM by congruence. auto.
Qed.
Lemma buck_rng (h : list (bmap K St)) k : 1 <= zlen h < 2 ^ 32 -> 0 <= buckindex hash h k < zlen h.
Proof. intros H. unfold buckindex. apply Z.mod_pos_bound. lia. Qed.
Lemma hash_eq k k' nb : cmp k k' = 0 -> hash k mod nb = hash k' mod nb.
Proof. intros E. now rewrite (proj2 HH k k' E). Qed.

(** find *)
Inductive hfound (n : Z) (h : list (bmap K St)) (m : fmap K V) (k : K) (it : Z) : Prop :=
| HNone b ks vs : it = SIZE_MAX -> m k = None -> zread h (buckindex hash h k) = Ret b -> bk n (zlen h) (buckindex hash h k) m b ks vs -> Forall (fun x => cmp k x <> 0) ks -> hfound n h m k it
| HSome b p x q vp v vq : it = buckindex hash h k * 2 ^ 32 + zlen vp -> it <> SIZE_MAX -> 0 <= zlen vp < 2 ^ 32 -> m k = Some v -> cmp k x = 0 ->
    zread h (buckindex hash h k) = Ret b -> bk n (zlen h) (buckindex hash h k) m b (p ++ x :: q) (vp ++ v :: vq) -> zlen p = zlen vp -> hfound n h m k it.
Lemma hfind_ok n h m k : hinv n h m -> exists it, hbmap_find cmp bs hash h k = Ret it /\ hfound n h m k it.
Proof.
  intros [H1 H2]. pose proof (buck_rng h k H1) as Hi. unfold hbmap_find. rewrite it_mk by lia.
  replace (it_bucket (buckindex hash h k * 2 ^ 32)) with (buckindex hash h k) by (rewrite <- (it_b (buckindex hash h k) 0) at 1 by lia; now rewrite Z.add_0_r).
  destruct (H2 _ Hi) as (b & ks & vs & E & HB). rewrite E. cbn [bind]. eexists; split; [reflexivity|].
  destruct (find_ok vrep ksz cmp HO bs HBS n b ks vs k (bk_r _ _ _ _ _ _ _ HB)) as [-> HN EL|p x q vp v vq -> -> E3 -> E4 EL].
  - rewrite it_max by (clear -Hi H1; change (2 ^ 64) with (2 ^ 32 * 2 ^ 32); nia). eapply HNone; eauto. now rewrite (bk_m _ _ _ _ _ _ _ HB).
  - pose proof (bk_l _ _ _ _ _ _ _ HB) as HL. pose proof (brep_n vo vok vrep HV ksz cmp n b _ _ (bk_r _ _ _ _ _ _ _ HB)). zl. zpos.
    rewrite (u64_id (zlen vp)) by lia. rewrite it_lor by lia.
    eapply HSome; eauto; try lia.
    + unfold SIZE_MAX. change (2 ^ 32) with 4294967296 in *. lia.
    + now rewrite (bk_m _ _ _ _ _ _ _ HB).
Qed.

Lemma iterv (h : list (bmap K St)) it i j : it = i * 2 ^ 32 + j -> 0 <= i -> 0 <= j < 2 ^ 32 -> iter_valid h it = Ret true <->
  i < zlen h /\ exists b, zread h i = Ret b /\ j < bmap_getsize b.
Proof.
  intros -> Hi Hj. unfold iter_valid, bucket_valid, index_valid. rewrite it_b, it_i by assumption.
  destruct (i <? zlen h) eqn:E; [|split; [discriminate|lia]].
  destruct (zread h i) as [b| |]; cbn [bind]; split; intros H; try discriminate.
  - injection H as H. split; [lia|]. exists b. split; [reflexivity|lia].
  - destruct H as [_ [b' [E1 E2]]]. injection E1 as <-. f_equal. lia.
  - destruct H as [_ [b' [E1 E2]]]. discriminate.
  - destruct H as [_ [b' [E1 E2]]]. discriminate.
Qed.
(** what a valid iterator denotes *)
Inductive hat (n : Z) (h : list (bmap K St)) (m : fmap K V) (it : Z) : Prop :=
| HAt i b p x q vp v vq : it = i * 2 ^ 32 + zlen vp -> 0 <= i < zlen h -> 0 <= zlen vp < 2 ^ 32 -> zread h i = Ret b ->
    bk n (zlen h) i m b (p ++ x :: q) (vp ++ v :: vq) -> zlen p = zlen vp -> hash x mod zlen h = i -> hat n h m it.
Lemma hvalid_at n h m it : hinv n h m -> 0 <= it < 2 ^ 64 -> iter_valid h it = Ret true -> hat n h m it.
Proof.
  intros [H1 H2] Hit Hv. destruct (it_split it Hit) as (i & j & E & Hi & Hj). apply (iterv h it i j E) in Hv; [|lia|lia].
  destruct Hv as [Hil [b [Eb Hjs]]]. destruct (H2 i ltac:(lia)) as (b' & ks & vs & Eb' & HB). rewrite Eb in Eb'. injection Eb' as <-.
  rewrite (brep_size vrep ksz cmp n b ks vs (bk_r _ _ _ _ _ _ _ HB)) in Hjs.
  destruct (zsplit_mid ks j ltac:(lia)) as (p & x & q & Ek & Hp).
  destruct (vsplit ks vs p x q (br_e _ _ _ _ _ _ _ (bk_r _ _ _ _ _ _ _ HB)) Ek) as (vp & v & vq & -> & El). subst ks.
  eapply HAt; eauto; try lia. pose proof (bk_h _ _ _ _ _ _ _ HB) as HF. apply Forall_app in HF as [_ HF]. now apply Forall_cons_iff in HF.
Qed.
Lemma hfound_valid n h m k it : hinv n h m -> hfound n h m k it -> it <> SIZE_MAX -> viter h it.
Proof.
  intros HI HF Hn. pose proof (buck_rng h k (hi_nb _ _ _ HI)) as Hb. pose proof (hi_nb _ _ _ HI). destruct HF as [|b p x q vp v vq E _ HL _ _ Eb HB El]; [congruence|].
  split; [change (2 ^ 64) with (2 ^ 32 * 2 ^ 32); nia|]. apply (iterv h it _ _ E); [lia|lia|]. split; [lia|]. exists b. split; [assumption|].
  rewrite (brep_size vrep ksz cmp _ b _ _ (bk_r _ _ _ _ _ _ _ HB)). zl. zpos. lia.
Qed.
Lemma hkv n h m it i b p x q vp v vq : it = i * 2 ^ 32 + zlen vp -> 0 <= zlen vp < 2 ^ 32 -> zread h i = Ret b ->
  bk n (zlen h) i m b (p ++ x :: q) (vp ++ v :: vq) -> zlen p = zlen vp -> hbmap_getkey h it = Ret x /\ hbmap_getval vo h it = Ret v.
Proof.
  intros -> HL Eb HB El. unfold hbmap_getkey, hbmap_getval. rewrite it_b, it_i by assumption. rewrite Eb. cbn [bind]. split.
  - rewrite <- El. eapply getkey_ok. apply (bk_r _ _ _ _ _ _ _ HB).
  - eapply getval_ok; [exact HV|]. apply (bk_r _ _ _ _ _ _ _ HB).
Qed.

Lemma hset_at n h m i b p x q vp y vq v : hinv n h m -> 0 <= i < zlen h -> 0 <= zlen vp < 2 ^ 32 -> zread h i = Ret b ->
  bk n (zlen h) i m b (p ++ x :: q) (vp ++ y :: vq) -> zlen p = zlen vp -> hash x mod zlen h = i ->
  exists h' b', hbmap_setvalue vo h v (i * 2 ^ 32 + zlen vp) = Ret h' /\ hinv n h' (fset cmp m x v) /\ hsizes h' = hsizes h /\ zlen h' = zlen h /\ zread h' i = Ret b' /\
    bk n (zlen h) i (fset cmp m x v) b' (p ++ x :: q) (vp ++ v :: vq).
Proof.
  intros HI Hi HL Eb HB El Hx. unfold hbmap_setvalue. rewrite it_b, it_i by assumption. rewrite Eb. cbn [bind].
  destruct (setvalue_ok vo vok vrep HV ksz cmp n b _ _ _ _ v (bk_r _ _ _ _ _ _ _ HB)) as [b' [-> [HB' Ek]]]. cbn [bind].
  destruct HB as [R L F M].
  assert (HK : bk n (zlen h) i (fset cmp m x v) b' (p ++ x :: q) (vp ++ v :: vq)).
  { split; auto. intros k Hk. unfold fset. destruct (cmp x k =? 0) eqn:Ec.
    - symmetry. apply lookup_at; auto; [apply (br_s _ _ _ _ _ _ _ R)|]. apply (to_sym cmp HO). lia.
    - rewrite M by assumption. rewrite !lookup_not; auto; intros E'; apply (to_sym cmp HO) in E'; lia. }
  destruct (hinv_upd n n h m i b' (p ++ x :: q) (vp ++ v :: vq) (fset cmp m x v) HI) as (h' & E & HI' & L' & R1 & R2); auto.
  - split; [|lia]. eapply brep_n; eauto.
  - intros k Hk. unfold fset. destruct (cmp x k =? 0) eqn:Ec; [|reflexivity]. exfalso. apply Hk. rewrite <- Hx. symmetry. apply hash_eq. lia.
  - exists h', b'. split; [exact E|]. split; [exact HI'|]. split; [|auto]. unfold hsizes.
    destruct (zsplit_mid h i Hi) as (hp & b0 & hq & -> & Hp). clear Hx. subst i. rewrite zread_at in Eb by reflexivity. injection Eb as ->.
    rewrite zwrite_at in E by reflexivity. injection E as <-. rewrite !map_app. cbn [map]. unfold bmap_getsize. now rewrite Ek.
Qed.
Lemma bk_ext n nb i m m' b ks vs : bk n nb i m b ks vs -> (forall k, m' k = m k) -> bk n nb i m' b ks vs.
Proof. intros [H1 H2 H3 H4] E. split; auto. intros k Hk. rewrite E. auto. Qed.
Lemma hinv_ext n h m m' : hinv n h m -> (forall k, m' k = m k) -> hinv n h m'.
Proof. intros [H1 H2] E. split; auto. intros i Hi. destruct (H2 i Hi) as (b & ks & vs & E1 & HB). exists b, ks, vs. split; [assumption|]. eapply bk_ext; eauto. Qed.
Lemma fset_eq m k x v k' : cmp k x = 0 -> fset cmp m k v k' = fset cmp (m : fmap K V) x v k'.
Proof.
  intros Ec. unfold fset. pose proof (to_eq_l cmp HO k x k' Ec). destruct (cmp x k' =? 0) eqn:E1, (cmp k k' =? 0) eqn:E3; auto; lia.
Qed.
Lemma hdel_at n h m i b p x q vp y vq : hinv n h m -> 0 <= i < zlen h -> 0 <= zlen vp < 2 ^ 32 -> zread h i = Ret b ->
  bk n (zlen h) i m b (p ++ x :: q) (vp ++ y :: vq) -> zlen p = zlen vp -> hash x mod zlen h = i ->
  exists h' b', hbmap_delete vo ksz h (i * 2 ^ 32 + zlen vp) = Ret h' /\ hinv n h' (fdel cmp m x) /\ zlen h' = zlen h /\ zread h' i = Ret b' /\ (forall j, j <> i -> zread h' j = zread h j) /\
    bk n (zlen h) i (fdel cmp m x) b' (p ++ q) (vp ++ vq).
Proof.
  intros HI Hi HL Eb HB El Hx. unfold hbmap_delete. rewrite it_b, it_i by assumption. rewrite Eb. cbn [bind].
  destruct (bdelete_ok vo vok vrep HV ksz Hksz cmp n b _ _ _ _ _ _ (bk_r _ _ _ _ _ _ _ HB) El) as [b' [-> HB']]. cbn [bind].
  destruct HB as [R L F M].
  assert (HK : bk n (zlen h) i (fdel cmp m x) b' (p ++ q) (vp ++ vq)).
  { split; auto; [zl; lia| |].
    - apply Forall_app in F as [F1 F2]. apply Forall_cons_iff in F2 as [_ F2]. apply Forall_app; auto.
    - intros k Hk. unfold fdel. destruct (cmp x k =? 0) eqn:Ec.
      + symmetry. eapply (lookup_del cmp HO k p x q); auto; [apply (br_s _ _ _ _ _ _ _ R)|]. apply (to_sym cmp HO). lia.
      + rewrite M by assumption. apply lookup_not; auto; intros E'; apply (to_sym cmp HO) in E'; lia. }
  destruct (hinv_upd n n h m i b' (p ++ q) (vp ++ vq) (fdel cmp m x) HI) as (h' & E & HI' & L' & R1 & R2); auto.
  - split; [|lia]. eapply brep_n; eauto.
  - intros k Hk. unfold fdel. destruct (cmp x k =? 0) eqn:Ec; [|reflexivity]. exfalso. apply Hk. rewrite <- Hx. symmetry. apply hash_eq. lia.
  - exists h', b'. auto 10.
Qed.

Lemma hinsert_ok n ka va h m k v : 0 <= n -> hinv (n + 1) h m -> (forall b, zread h (buckindex hash h k) = Ret b -> bmap_getsize b < 2 ^ 32 - 1) ->
  exists it h', hbmap_insert vo ksz cmp bs hash ka va h k v = Ret (it, h') /\
    (it = SIZE_MAX /\ hinv n h' m /\ boths vok ka va = false \/
     it <> SIZE_MAX /\ hinv n h' (fset cmp m k v) /\ viter h' it /\ exists k', hbmap_getkey h' it = Ret k' /\ hbmap_getval vo h' it = Ret v /\ cmp k k' = 0).
Proof.
  intros Hn HI Hbig. unfold hbmap_insert. pose proof (buck_rng h k (hi_nb _ _ _ HI)) as Hi. pose proof (hi_nb _ _ _ HI) as Hnb.
  destruct (hfind_ok _ _ _ k HI) as (it & -> & HF). cbn [bind].
  destruct HF as [b ks vs -> Em Eb HB HN|b p x q vp y vq Eit Hne HL Em Ec Eb HB El].
  - rewrite Z.eqb_refl. unfold hbmap_insert_nocheck. rewrite it_mk by lia.
    replace (it_bucket (buckindex hash h k * 2 ^ 32)) with (buckindex hash h k) by (rewrite <- (it_b (buckindex hash h k) 0) at 1 by lia; now rewrite Z.add_0_r).
    specialize (Hbig b Eb). rewrite (brep_size vrep ksz cmp _ b _ _ (bk_r _ _ _ _ _ _ _ HB)) in Hbig. rewrite Eb. cbn [bind]. destruct HB as [R L F M].
    destruct (nocheck_ok vo vok vrep HV ksz Hksz cmp HO n ka va b ks vs k v Hn R HN) as (r & ss & b' & -> & [(-> & HB' & HFl)|(p & q & vp & vq & -> & -> & El & -> & -> & HB')]); cbn [bind].
    + destruct (hinv_upd n (n + 1) h m (buckindex hash h k) b' ks vs m HI) as (h' & -> & HI' & _); auto; try lia.
      { split; auto. }
      cbn [bind]. rewrite it_max by (clear -Hi Hnb; change (2 ^ 64) with (2 ^ 32 * 2 ^ 32); nia). do 2 eexists; split; [reflexivity|]. left. split; [reflexivity|]. split; [assumption|].
      unfold boths. destruct HFl as [[_ ->]|[_ ->]]; [reflexivity|apply andb_false_r].
    + assert (HK : bk n (zlen h) (buckindex hash h k) (fset cmp m k v) b' (p ++ k :: q) (vp ++ v :: vq)).
      { split; auto; [zl; lia| |].
        - apply Forall_app in F as [F1 F2]. apply Forall_app; split; auto.
        - intros k' Hk. unfold fset. destruct (cmp k k' =? 0) eqn:E.
          + symmetry. apply lookup_at; auto; [apply (br_s _ _ _ _ _ _ _ HB')|]. apply (to_sym cmp HO). lia.
          + rewrite M by assumption. symmetry. apply lookup_not; auto; intros E'; apply (to_sym cmp HO) in E'; lia. }
      destruct (hinv_upd n (n + 1) h m (buckindex hash h k) b' (p ++ k :: q) (vp ++ v :: vq) (fset cmp m k v) HI) as (h' & -> & HI' & L' & R1 & R2); auto; try lia.
      { intros k' Hk. unfold fset. destruct (cmp k k' =? 0) eqn:E; [|reflexivity]. exfalso. apply Hk. symmetry. apply hash_eq. lia. }
      cbn [bind]. pose proof (bk_l _ _ _ _ _ _ _ HK) as HL. zl. zpos. rewrite (u64_id (zlen vp)) by lia. rewrite it_lor by lia.
      assert (HBL : hbmap_getkey h' (buckindex hash h k * 2 ^ 32 + zlen vp) = Ret k /\ hbmap_getval vo h' (buckindex hash h k * 2 ^ 32 + zlen vp) = Ret v).
      { eapply hkv; eauto; [lia|]. rewrite L'. eauto. }
      do 2 eexists; split; [reflexivity|]. right. split; [unfold SIZE_MAX; change (2 ^ 32) with 4294967296 in *; lia|]. split; [assumption|]. split.
      * split; [change (2 ^ 64) with (2 ^ 32 * 2 ^ 32); nia|]. apply (iterv _ _ _ _ eq_refl); [lia|lia|]. split; [lia|]. exists b'. split; [assumption|].
        rewrite (brep_size vrep ksz cmp _ b' _ _ HB'). zl. zpos. lia.
      * exists k. split; [apply HBL|]. split; [apply HBL|now apply to_refl].
  - replace (it =? SIZE_MAX) with false by lia. assert (Hx : hash x mod zlen h = buckindex hash h k) by (symmetry; apply hash_eq; assumption).
    rewrite Eit. pose proof (hinv_mono _ n _ _ HI ltac:(lia)) as HI0. pose proof (bk_mono _ n _ _ _ _ _ _ HB ltac:(lia)) as HB0.
    destruct (hset_at n h m _ b p x q vp y vq v HI0 Hi HL Eb HB0 El Hx) as (h' & b' & E & HI' & HSz & L' & R1 & HK). rewrite E. cbn [bind].
    do 2 eexists; split; [reflexivity|]. right. split; [lia|]. split; [eapply hinv_ext; [exact HI'|]; intros; now apply fset_eq|]. split.
    + split; [change (2 ^ 64) with (2 ^ 32 * 2 ^ 32); nia|]. apply (iterv _ _ _ _ eq_refl); [lia|lia|]. split; [lia|]. exists b'. split; [assumption|].
      rewrite (brep_size vrep ksz cmp _ b' _ _ (bk_r _ _ _ _ _ _ _ HK)). zl. zpos. lia.
    + exists x. rewrite <- L' in HK. destruct (hkv n h' _ _ _ b' p x q vp v vq eq_refl HL R1 HK El). auto.
Qed.

Lemma hexec_ok n ka va h m o : 0 <= n -> hinv (n + 1) h m -> hvalid hash h o ->
  exists r h' m', hexec vo ksz cmp bs hash ka va h o = Ret (r, h') /\ hinv n h' m' /\ mspec cmp (boths vok ka va) m o r m'.
Proof.
  intros Hn HI Hva. pose proof (hinv_mono _ n _ _ HI ltac:(lia)) as HI0.
  destruct o as [k v|k|k|k|it|v it]; cbn [hexec hvalid] in *.
  - assert (Hva' : forall b, zread h (buckindex hash h k) = Ret b -> bmap_getsize b < 2 ^ 32 - 1) by (intros b Eb; now rewrite Eb in Hva).
    destruct (hinsert_ok n ka va h m k v Hn HI Hva') as (it & h' & -> & [(_ & HI' & Hf)|(_ & HI' & _)]); cbn [bind]; do 3 eexists; (split; [reflexivity|]); (split; [exact HI'|]).
    + now apply MsInsertOom. + constructor.
  - unfold hbmap_get. destruct (hfind_ok _ _ _ k HI0) as (it & -> & HF). cbn [bind].
    destruct HF as [b ks vs -> Em Eb HB HN|b p x q vp y vq Eit Hne HL Em Ec Eb HB El].
    + rewrite Z.eqb_refl. cbn [bind]. rewrite <- Em. do 3 eexists; split; [reflexivity|]. split; [exact HI0|constructor].
    + replace (it =? SIZE_MAX) with false by lia. destruct (hkv _ _ _ _ _ _ _ _ _ _ _ _ Eit HL Eb HB El) as [_ ->]. cbn [bind]. rewrite <- Em.
      do 3 eexists; split; [reflexivity|]. split; [exact HI0|constructor].
  - unfold hbmap_contains. destruct (hfind_ok _ _ _ k HI0) as (it & -> & HF). cbn [bind]. do 3 eexists; split; [reflexivity|]. split; [exact HI0|constructor].
    destruct HF as [b ks vs -> Em Eb HB HN|b p x q vp y vq Eit Hne HL Em Ec Eb HB El].
    + rewrite Z.eqb_refl, Em. cbn. intuition congruence.
    + replace (it =? SIZE_MAX) with false by lia. rewrite Em. cbn. intuition congruence.
  - destruct (hfind_ok _ _ _ k HI0) as (it & -> & HF). cbn [bind].
    destruct HF as [b ks vs -> Em Eb HB HN|b p x q vp y vq Eit Hne HL Em Ec Eb HB El].
    + rewrite Z.eqb_refl. do 3 eexists; split; [reflexivity|]. split; [exact HI0|now constructor].
    + replace (it =? SIZE_MAX) with false by lia. destruct (hkv _ _ _ _ _ _ _ _ _ _ _ _ Eit HL Eb HB El) as [-> ->]. cbn [bind].
      do 3 eexists; split; [reflexivity|]. split; [exact HI0|now constructor].
  - destruct Hva as [Hr Hva]. destruct (hvalid_at _ _ _ it HI0 Hr Hva) as [i b p x q vp v vq Eit Hi HL Eb HB El Hx].
    destruct (hkv _ _ _ _ _ _ _ _ _ _ _ _ Eit HL Eb HB El) as [-> Ev]. cbn [bind]. rewrite Eit.
    destruct (hdel_at n h m i b p x q vp v vq HI0 Hi HL Eb HB El Hx) as (h' & b' & -> & HI' & _). cbn [bind].
    do 3 eexists; split; [reflexivity|]. split; [exact HI'|]. constructor. rewrite (bk_m _ _ _ _ _ _ _ HB) by assumption.
    rewrite lookup_at; [discriminate|exact HO|apply (br_s _ _ _ _ _ _ _ (bk_r _ _ _ _ _ _ _ HB))|lia|now apply to_refl].
  - destruct Hva as [Hr Hva]. destruct (hvalid_at _ _ _ it HI0 Hr Hva) as [i b p x q vp y vq Eit Hi HL Eb HB El Hx].
    destruct (hkv _ _ _ _ _ _ _ _ _ _ _ _ Eit HL Eb HB El) as [-> Ev]. cbn [bind]. rewrite Eit.
    destruct (hset_at n h m i b p x q vp y vq v HI0 Hi HL Eb HB El Hx) as (h' & b' & -> & HI' & _). cbn [bind].
    do 3 eexists; split; [reflexivity|]. split; [exact HI'|]. constructor. rewrite (bk_m _ _ _ _ _ _ _ HB) by assumption.
    rewrite lookup_at; [discriminate|exact HO|apply (br_s _ _ _ _ _ _ _ (bk_r _ _ _ _ _ _ _ HB))|lia|now apply to_refl].
Qed.
Lemma hrun_ok l : forall h m, hinv (zlen l) h m -> hcaller_ok vo ksz cmp bs hash h l ->
  exists rs h' m', hrun vo ksz cmp bs vok hash h l = Ret (rs, h') /\ hinv 0 h' m' /\ mspec_run cmp m rs m' /\
    map fst rs = map (fun x => (boths vok (fst (fst x)) (snd (fst x)), snd x)) l.
Proof.
  induction l as [|[[ka va] o] l IH]; intros h m HI HC; cbn [hrun].
  - do 3 eexists; split; [reflexivity|]. split; [exact HI|]. split; [constructor|reflexivity].
  - cbn [hcaller_ok] in HC. destruct HC as [Hv HC]. zl. zpos. rewrite Z.add_comm in HI.
    destruct (hexec_ok (zlen l) ka va h m o ltac:(lia) HI Hv) as [r [h' [m' [E [HI' HS]]]]]. rewrite E in *. cbn [bind].
    destruct (IH h' m' HI' HC) as [rs [h'' [m'' [-> [HH'' [HR HM]]]]]]. cbn [bind].
    do 3 eexists; split; [reflexivity|]. split; [exact HH''|]. split; [econstructor; eauto|]. cbn. now rewrite HM.
Qed.
Lemma hinv_hholds n h m : hinv n h m -> hholds vo cmp bs hash h m.
Proof.
  intros HI. pose proof (hi_nb _ _ _ HI) as Hnb. split; [|split; [|split]].
  - intros it [Hr Hva]. destruct (hvalid_at _ _ _ it HI Hr Hva) as [i b p x q vp v vq Eit Hi HL Eb HB El Hx].
    destruct (hkv _ _ _ _ _ _ _ _ _ _ _ _ Eit HL Eb HB El) as [-> ->]. exists x, v. split; [reflexivity|]. split; [reflexivity|].
    rewrite (bk_m _ _ _ _ _ _ _ HB) by assumption. apply lookup_at; [exact HO|apply (br_s _ _ _ _ _ _ _ (bk_r _ _ _ _ _ _ _ HB))|lia|now apply to_refl].
  - intros it it' k k' [Hr Hva] [Hr' Hva'] E1 E2 Ec. destruct (hvalid_at _ _ _ it HI Hr Hva) as [i b p x q vp v vq Eit Hi HL Eb HB El Hx].
    destruct (hvalid_at _ _ _ it' HI Hr' Hva') as [i' b' p' x' q' vp' v' vq' Eit' Hi' HL' Eb' HB' El' Hx'].
    destruct (hkv _ _ _ _ _ _ _ _ _ _ _ _ Eit HL Eb HB El) as [Ek _]. destruct (hkv _ _ _ _ _ _ _ _ _ _ _ _ Eit' HL' Eb' HB' El') as [Ek' _].
    rewrite E1 in Ek. injection Ek as ->. rewrite E2 in Ek'. injection Ek' as ->.
    assert (Hii : i' = i) by (rewrite <- Hx, <- Hx'; symmetry; now apply hash_eq). clear Hx Hx'. subst i'. rewrite Eb in Eb'. injection Eb' as <-.
    pose proof (bk_r _ _ _ _ _ _ _ HB) as R1. pose proof (bk_r _ _ _ _ _ _ _ HB') as R2.
    assert (EE : p ++ x :: q = p' ++ x' :: q').
    { pose proof (br_k _ _ _ _ _ _ _ R1) as T1. pose proof (br_k _ _ _ _ _ _ _ R2) as T2.
      pose proof (r_cnt _ _ _ T1) as C1. pose proof (r_cnt _ _ _ T2) as C2. rewrite C1 in C2.
      apply (znth_ext x); [assumption|]. intros z Hz. pose proof (get_znth _ _ _ z x T1 ltac:(lia)). pose proof (get_znth _ _ _ z x T2 ltac:(lia)). congruence. }
    pose proof (br_s _ _ _ _ _ _ _ R1) as S1.
    destruct (Z.lt_trichotomy (zlen p) (zlen p')) as [Hlt|[Heq|Hgt]]; [exfalso| |exfalso].
    + destruct (ssorted_neq cmp HO x' p x q S1 ltac:(now apply to_sym)) as [_ N].
      assert (Hx0 : In x' q). { assert (znth x' (p ++ x :: q) (zlen p') = x') by (rewrite EE; apply znth_app_exact). rewrite znth_app2, znth_consS in H by lia. rewrite <- H. apply znth_In. apply (f_equal zlen) in EE. zl. zpos. lia. }
      apply (proj1 (Forall_forall _ _) N x' Hx0). now apply to_refl.
    + subst it it'. lia.
    + destruct (ssorted_neq cmp HO x' p x q S1 ltac:(now apply to_sym)) as [N _].
      assert (Hx0 : In x' p). { assert (znth x' (p ++ x :: q) (zlen p') = x') by (rewrite EE; apply znth_app_exact). rewrite znth_app1 in H by lia. rewrite <- H. apply znth_In. zpos. lia. }
      apply (proj1 (Forall_forall _ _) N x' Hx0). now apply to_refl.
  - intros k Hk. destruct (hfind_ok _ _ _ k HI) as (it & _ & HF). pose proof (fun E => hfound_valid _ _ _ _ _ HI HF E) as Hv.
    destruct HF as [b ks vs -> Em Eb HB HN|b p x q vp y vq Eit Hne HL Em Ec Eb HB El]; [congruence|].
    destruct (hkv _ _ _ _ _ _ _ _ _ _ _ _ Eit HL Eb HB El) as [E1 _]. exists it, x. auto.
  - intros k. unfold hbmap_get. destruct (hfind_ok _ _ _ k HI) as (it & -> & HF). cbn [bind].
    destruct HF as [b ks vs -> Em Eb HB HN|b p x q vp y vq Eit Hne HL Em Ec Eb HB El].
    + now rewrite Z.eqb_refl, Em.
    + replace (it =? SIZE_MAX) with false by lia. destruct (hkv _ _ _ _ _ _ _ _ _ _ _ _ Eit HL Eb HB El) as [_ ->]. cbn [bind]. now rewrite Em.
Qed.
Lemma hinit_ok n nb : 1 <= nb < 2 ^ 32 -> vrep n (v_init vo) [] -> 0 <= n -> (2 * n + 4) * ksz < 2 ^ 64 -> hinv n (hbmap_init vo nb) fempty.
Proof.
  intros Hnb Hv Hn HL. unfold hbmap_init. assert (EL : zlen (zrepeat (bmap_init vo : bmap K St) nb) = nb) by (apply zlen_zrepeat; lia).
  split; rewrite EL; [assumption|]. intros i Hi. exists (bmap_init vo), [], []. split.
  - rewrite (zread_ok (bmap_init vo)) by lia. f_equal. apply znth_zrepeat. lia.
  - split; auto; [|change (zlen []) with 0; lia]. split; cbn [bkeys bvals bmap_init]; auto; try exact I. apply init_trep.
Qed.

(** ---------- iteration ---------- *)
Fixpoint its (i : Z) (sizes : list Z) : list Z :=
  match sizes with
  | [] => []
  | s :: t => map (fun j => i * 2 ^ 32 + Z.of_nat j) (seq 0 (Z.to_nat s)) ++ its (i + 1) t
  end.
Definition from (i : Z) (j s : Z) (t : list Z) : list Z :=
  map (fun j => i * 2 ^ 32 + Z.of_nat j) (seq (Z.to_nat j) (Z.to_nat (s - j))) ++ its (i + 1) t.
Lemma its_from i s t : 0 <= s -> its i (s :: t) = from i 0 s t.
Proof. intros. cbn [its]. unfold from. now rewrite Z.sub_0_r. Qed.
Lemma from_cons i j s t : 0 <= j < s -> from i j s t = (i * 2 ^ 32 + j) :: from i (j + 1) s t.
Proof.
  intros H. unfold from. replace (Z.to_nat (s - j)) with (S (Z.to_nat (s - (j + 1)))) by lia. cbn [seq map app].
  rewrite Z2Nat.id by lia. replace (S (Z.to_nat j)) with (Z.to_nat (j + 1)) by lia. reflexivity.
Qed.
Lemma from_end i j s t : s <= j -> from i j s t = its (i + 1) t.
Proof. intros H. unfold from. now replace (Z.to_nat (s - j)) with O by lia. Qed.
Definition okb (s : Z) : Prop := 0 <= s <= 2 ^ 32 - 1.

Lemma index_valid_at hp b hq j : 0 <= j < 2 ^ 32 -> index_valid (hp ++ b :: hq : list (bmap K St)) (zlen hp * 2 ^ 32 + j) = Ret (j <? bmap_getsize b).
Proof. intros H. unfold index_valid. rewrite it_b, it_i by assumption. now rewrite zread_at. Qed.
Lemma bucket_valid_at (h : list (bmap K St)) i j : 0 <= j < 2 ^ 32 -> bucket_valid h (i * 2 ^ 32 + j) = (i <? zlen h).
Proof. intros H. unfold bucket_valid. now rewrite it_b. Qed.
Lemma next_valid_ok (hq : list (bmap K St)) : forall fuel hp b j, zlen (hp ++ b :: hq) < 2 ^ 32 -> 0 <= j <= 2 ^ 32 - 2 -> Forall okb (hsizes (hp ++ b :: hq)) -> (length hq < fuel)%nat ->
  next_valid fuel (hp ++ b :: hq) (zlen hp * 2 ^ 32 + j) = Ret (hd (zlen (hp ++ b :: hq) * 2 ^ 32) (from (zlen hp) (j + 1) (bmap_getsize b) (hsizes hq))).
Proof.
  induction hq as [|b2 hq IH]; intros fuel hp b j HL Hj HS Hf; (destruct fuel as [|fuel]; [cbn in Hf; lia|]); cbn [next_valid]; unfold next_step;
    zl; zpos; (assert (Hjs : 0 <= zlen hp < 2 ^ 32 - 1) by lia);
    (rewrite (u64_id (zlen hp * 2 ^ 32 + j + 1)) by (change (2 ^ 64) with (2 ^ 32 * 2 ^ 32); nia));
    replace (zlen hp * 2 ^ 32 + j + 1) with (zlen hp * 2 ^ 32 + (j + 1)) by lia; rewrite index_valid_at by lia; cbn [bind];
    (destruct (j + 1 <? bmap_getsize b) eqn:E;
     [rewrite bucket_valid_at by lia; replace (zlen hp <? zlen (hp ++ _ :: _)) with true by (zl; lia);
      rewrite index_valid_at by lia; cbn [bind]; rewrite E; rewrite from_cons by lia; reflexivity|]);
    (rewrite it_b by lia); rewrite u64_id by lia; rewrite it_mk by lia; rewrite <- (Z.add_0_r ((zlen hp + 1) * 2 ^ 32)); rewrite bucket_valid_at by lia; rewrite from_end by lia.
  - replace (zlen hp + 1 <? zlen (hp ++ [b])) with false by (zl; lia). cbn. f_equal. zl. lia.
  - replace (zlen hp + 1 <? zlen (hp ++ b :: b2 :: hq)) with true by (zl; lia).
    replace (hp ++ b :: b2 :: hq) with ((hp ++ [b]) ++ b2 :: hq) in * by (now rewrite <- app_assoc).
    replace (zlen hp + 1) with (zlen (hp ++ [b])) by (zl; lia). rewrite index_valid_at by lia. cbn [bind hsizes map].
    assert (H2 : okb (bmap_getsize b2)). { unfold hsizes in HS. rewrite map_app in HS. apply Forall_app in HS as [_ HS]. cbn in HS. now apply Forall_cons_iff in HS. }
    destruct H2 as [H2 H3]. rewrite its_from by lia. destruct (0 <? bmap_getsize b2) eqn:E2.
    + rewrite from_cons by lia. reflexivity.
    + rewrite from_end by lia. rewrite IH; auto; try lia; [|zl; lia|cbn in Hf; lia]. rewrite from_end by lia. do 3 f_equal. zl. lia.
Qed.

Lemma sizes_split (h : list (bmap K St)) sp s st : hsizes h = sp ++ s :: st -> exists hp b hq, h = hp ++ b :: hq /\ zlen hp = zlen sp /\ bmap_getsize b = s /\ hsizes hp = sp /\ hsizes hq = st.
Proof.
  intros E. unfold hsizes in *. apply map_eq_app in E as (hp & hr & -> & E1 & E2). apply map_eq_cons in E2 as (b & hq & -> & E3 & E4).
  exists hp, b, hq. split; [reflexivity|]. split; [subst sp; now rewrite zlen_map|]. auto.
Qed.
Lemma zlen_hsizes (h : list (bmap K St)) : zlen (hsizes h) = zlen h.
Proof. apply zlen_map. Qed.
Definition ipos (sz : list Z) (it : Z) (L : list Z) : Prop :=
  L = [] /\ it = zlen sz * 2 ^ 32 \/ exists sp s st j, sz = sp ++ s :: st /\ 0 <= j < s /\ it = zlen sp * 2 ^ 32 + j /\ L = from (zlen sp) j s st.
Lemma ipos_its t : forall sz sp, sz = sp ++ t -> Forall okb t -> ipos sz (hd (zlen sz * 2 ^ 32) (its (zlen sp) t)) (its (zlen sp) t).
Proof.
  induction t as [|s t IH]; intros sz sp E HF; [left; auto|]. apply Forall_cons_iff in HF as [[H1 H2] HF]. rewrite its_from by lia.
  destruct (0 <? s) eqn:Es.
  - right. exists sp, s, t, 0. rewrite from_cons at 1 by lia. cbn [hd]. repeat (split; [auto; lia|]). split; auto.
  - rewrite from_end by lia. replace (zlen sp + 1) with (zlen (sp ++ [s])) by (zl; lia). apply IH; [|assumption]. now rewrite <- app_assoc.
Qed.
Lemma ipos_from sz sp s st j : sz = sp ++ s :: st -> Forall okb sz -> 0 <= j -> ipos sz (hd (zlen sz * 2 ^ 32) (from (zlen sp) j s st)) (from (zlen sp) j s st).
Proof.
  intros E HF Hj. destruct (j <? s) eqn:Es.
  - right. exists sp, s, st, j. rewrite from_cons at 1 by lia. cbn [hd]. repeat (split; [auto; lia|]). split; auto.
  - rewrite from_end by lia. replace (zlen sp + 1) with (zlen (sp ++ [s])) by (zl; lia). apply ipos_its; [now rewrite <- app_assoc|].
    subst sz. apply Forall_app in HF as [_ HF]. now apply Forall_cons_iff in HF.
Qed.
Lemma iter_valid_end (h : list (bmap K St)) : iter_valid h (zlen h * 2 ^ 32) = Ret false.
Proof. unfold iter_valid. rewrite <- (Z.add_0_r (zlen h * 2 ^ 32)). rewrite bucket_valid_at by lia. now rewrite Z.ltb_irrefl. Qed.
Lemma iter_valid_at hp b hq j : 0 <= j < 2 ^ 32 -> iter_valid (hp ++ b :: hq : list (bmap K St)) (zlen hp * 2 ^ 32 + j) = Ret (j <? bmap_getsize b).
Proof. intros H. unfold iter_valid. rewrite bucket_valid_at by lia. replace (zlen hp <? zlen (hp ++ b :: hq)) with true by (zl; zpos; lia). now apply index_valid_at. Qed.
Lemma iter_valid_0 b (hq : list (bmap K St)) : iter_valid (b :: hq) 0 = Ret (0 <? bmap_getsize b).
Proof. pose proof (iter_valid_at [] b hq 0 ltac:(lia)) as H. cbn [app] in H. change (zlen [] * 2 ^ 32 + 0) with 0 in H. exact H. Qed.
Lemma next_valid_at hp b (hq : list (bmap K St)) j : zlen (hp ++ b :: hq) < 2 ^ 32 -> 0 <= j <= 2 ^ 32 - 2 -> Forall okb (hsizes (hp ++ b :: hq)) ->
  hbmap_next_valid (hp ++ b :: hq) (zlen hp * 2 ^ 32 + j) = Ret (hd (zlen (hp ++ b :: hq) * 2 ^ 32) (from (zlen hp) (j + 1) (bmap_getsize b) (hsizes hq))).
Proof. intros. unfold hbmap_next_valid. apply next_valid_ok; auto. rewrite app_length. cbn [length]. lia. Qed.

Section Keep.
Variable sz : list Z.
Hypothesis Hsz : Forall okb sz.
Hypothesis Hlen : zlen sz < 2 ^ 32.
Variable body : list (bmap K St) -> Z -> out (list (bmap K St)).
Hypothesis Hbody : forall h it, hsizes h = sz -> iter_valid h it = Ret true -> exists h', body h it = Ret h' /\ hsizes h' = sz.
Lemma foreach_loop_ok fuel : forall L h it, hsizes h = sz -> ipos sz it L -> (length L < fuel)%nat ->
  exists h', foreach_loop fuel body h it = Ret (L, h') /\ hsizes h' = sz.
Proof.
  induction fuel as [|fuel IH]; intros L h it Hh HP Hf; [lia|]. cbn [foreach_loop].
  destruct HP as [[-> ->]|(sp & s & st & j & E & Hj & -> & ->)].
  - replace (zlen sz) with (zlen h) by (rewrite <- Hh; symmetry; apply zlen_hsizes). rewrite iter_valid_end. cbn [bind]. eauto.
  - assert (Hs : okb s). { rewrite E in Hsz. apply Forall_app in Hsz as [_ H]. now apply Forall_cons_iff in H. } destruct Hs as [Hs1 Hs2].
    pose proof Hh as Hh0. rewrite E in Hh0. destruct (sizes_split h sp s st Hh0) as (hp & b & hq & -> & El & Eb & E1 & E2). rewrite <- El in *.
    assert (HV1 : iter_valid (hp ++ b :: hq) (zlen hp * 2 ^ 32 + j) = Ret true) by (rewrite iter_valid_at by lia; f_equal; lia). rewrite HV1. cbn [bind].
    destruct (Hbody _ _ Hh HV1) as (h2 & -> & Hh2). cbn [bind].
    pose proof Hh2 as Hh0'. rewrite E in Hh0'. destruct (sizes_split h2 sp s st Hh0') as (hp2 & b2 & hq2 & -> & El2 & Eb2 & E12 & E22).
    replace (hbmap_next_valid (hp2 ++ b2 :: hq2) (zlen hp * 2 ^ 32 + j)) with (hbmap_next_valid (hp2 ++ b2 :: hq2) (zlen hp2 * 2 ^ 32 + j)) by congruence.
    rewrite next_valid_at; [|rewrite <- zlen_hsizes, Hh2; lia|lia|rewrite Hh2; assumption]. cbn [bind].
    rewrite <- zlen_hsizes, Hh2, Eb2, E22.
    rewrite (from_cons _ j) in Hf by lia. rewrite (from_cons _ j) by lia. cbn [length] in Hf. rewrite El2. rewrite El in *.
    destruct (IH (from (zlen sp) (j + 1) s st) _ (hd (zlen sz * 2 ^ 32) (from (zlen sp) (j + 1) s st)) Hh2) as (h' & -> & Hh'); [apply ipos_from; auto; lia|lia|].
    cbn [bind]. eauto.
Qed.
Lemma foreach_ok fuel h : hsizes h = sz -> 1 <= zlen sz -> (length (its 0 sz) < fuel)%nat -> exists h', hbmap_foreach fuel body h = Ret (its 0 sz, h') /\ hsizes h' = sz.
Proof.
  intros Hh H1 Hf. unfold hbmap_foreach. pose proof foreach_loop_ok as FL. destruct sz as [|s st] eqn:E; [cbn in H1; lia|].
  destruct (sizes_split h [] s st Hh) as (hp & b & hq & -> & El & Eb & E1 & E2). destruct hp; [|zl; zpos; lia]. cbn [app] in *.
  assert (Hs : okb s) by (apply Forall_cons_iff in Hsz as [Hs _]; exact Hs). destruct Hs as [Hs1 Hs2].
  rewrite iter_valid_0, Eb. cbn [bind].
  assert (HI : exists it, (if 0 <? s then Ret 0 else hbmap_next_valid (b :: hq) 0) = Ret it /\ ipos (s :: st) it (its 0 (s :: st))).
  { destruct (0 <? s) eqn:Es.
    - exists 0. split; [reflexivity|]. right. exists [], s, st, 0. rewrite its_from by lia. repeat split; auto; lia.
    - pose proof (next_valid_at [] b hq 0) as HN. cbn [app] in HN. change (zlen [] * 2 ^ 32 + 0) with 0 in HN. rewrite HN; [|rewrite <- zlen_hsizes, Hh; lia|lia|rewrite Hh; assumption].
      eexists; split; [reflexivity|]. rewrite <- zlen_hsizes, Hh, Eb, E2. rewrite its_from by lia. rewrite (from_end 0 0) by lia. change (zlen []) with 0.
      rewrite (from_end 0 (0 + 1)) by lia. apply (ipos_its st (s :: st) [s]); [reflexivity|]. apply Forall_cons_iff in Hsz as [_ Hst]. exact Hst. }
  destruct HI as (it & -> & HP). cbn [bind]. apply FL; auto.
Qed.
End Keep.

(** the enumeration *)
Lemma in_its t : forall i it, Forall okb t -> In it (its i t) <-> exists sp s st j, t = sp ++ s :: st /\ 0 <= j < s /\ it = (i + zlen sp) * 2 ^ 32 + j.
Proof.
  induction t as [|s t IH]; intros i it HF; cbn [its].
  - split; [intros []|]. intros (sp & s & st & j & E & _). destruct sp; discriminate.
  - apply Forall_cons_iff in HF as [[H1 H2] HF]. rewrite in_app_iff, in_map_iff. split.
    + intros [(j & <- & Hj)|Hin].
      * apply in_seq in Hj. exists [], s, t, (Z.of_nat j). change (zlen []) with 0. repeat split; lia.
      * apply IH in Hin as (sp & s' & st & j & -> & Hj & ->); [|assumption]. exists (s :: sp), s', st, j. zl. repeat split; lia.
    + intros (sp & s' & st & j & E & Hj & ->). destruct sp as [|s0 sp]; cbn [app] in E; injection E as -> ->.
      * left. exists (Z.to_nat j). change (zlen []) with 0. split; [lia|]. apply in_seq. lia.
      * right. apply IH; [assumption|]. exists sp, s', st, j. zl. repeat split; lia.
Qed.
Lemma its_valid (h : list (bmap K St)) : Forall okb (hsizes h) -> 1 <= zlen h < 2 ^ 32 -> forall it, In it (its 0 (hsizes h)) <-> viter h it.
Proof.
  intros HF HL it. rewrite in_its by assumption. split.
  - intros (sp & s & st & j & E & Hj & ->). destruct (sizes_split h sp s st E) as (hp & b & hq & -> & El & Eb & _).
    assert (Hs : okb s). { rewrite E in HF. apply Forall_app in HF as [_ H]. now apply Forall_cons_iff in H. } destruct Hs as [Hs1 Hs2].
    zl. zpos. rewrite Z.add_0_l, <- El. split; [change (2 ^ 64) with (2 ^ 32 * 2 ^ 32); nia|]. rewrite iter_valid_at by lia. f_equal. lia.
  - intros [Hr Hv]. destruct (it_split it Hr) as (i & j & E & Hi & Hj). apply (iterv h it i j E) in Hv; [|lia|lia]. destruct Hv as [Hil [b [Eb Hjs]]].
    destruct (zsplit_mid h i ltac:(lia)) as (hp & b' & hq & -> & Hp). rewrite zread_at in Eb by lia. injection Eb as ->.
    exists (hsizes hp), (bmap_getsize b), (hsizes hq), j. unfold hsizes. rewrite map_app, zlen_map. cbn [map]. rewrite Hp. repeat split; lia.
Qed.
Lemma SS_app a b : StronglySorted Z.lt a -> StronglySorted Z.lt b -> (forall x y, In x a -> In y b -> x < y) -> StronglySorted Z.lt (a ++ b).
Proof.
  induction a as [|x a IH]; intros Ha Hb H; cbn [app]; [assumption|]. apply StronglySorted_inv in Ha as [Ha Hx]. constructor.
  - apply IH; auto. intros; apply H; [now right|assumption].
  - apply Forall_app. split; [assumption|]. apply Forall_forall. intros y Hy. apply H; [now left|assumption].
Qed.
Lemma SS_seq i n : forall a, StronglySorted Z.lt (map (fun j => i * 2 ^ 32 + Z.of_nat j) (seq a n)).
Proof.
  induction n as [|n IH]; intros a; cbn [seq map]; constructor; auto. apply Forall_forall. intros y Hy. apply in_map_iff in Hy as (j & <- & Hj). apply in_seq in Hj. lia.
Qed.
Lemma its_sorted t : forall i, Forall okb t -> StronglySorted Z.lt (its i t).
Proof.
  induction t as [|s t IH]; intros i HF; cbn [its]; [constructor|]. apply Forall_cons_iff in HF as [[H1 H2] HF].
  apply SS_app; [apply SS_seq|now apply IH|]. intros x y Hx Hy. apply in_map_iff in Hx as (j & <- & Hj). apply in_seq in Hj.
  apply in_its in Hy as (sp & s' & st & j' & -> & Hj' & ->); [|assumption]. zpos. nia.
Qed.
Lemma its_len t : forall i, Forall okb t -> Z.of_nat (length (its i t)) = fold_right Z.add 0 t.
Proof.
  induction t as [|s t IH]; intros i HF; cbn [its fold_right]; [reflexivity|]. apply Forall_cons_iff in HF as [[H1 H2] HF].
  rewrite app_length, map_length, seq_length, Nat2Z.inj_add, IH by assumption. lia.
Qed.
Lemma hinv_okb n h m : hinv n h m -> Forall okb (hsizes h).
Proof.
  intros [H1 H2]. apply Forall_forall. intros s Hs. unfold hsizes in Hs. apply in_map_iff in Hs as (b & <- & Hb).
  destruct (In_znth (bmap_init vo) _ _ Hb) as (i & Hi & E). destruct (H2 i Hi) as (b' & ks & vs & Eb & HB). rewrite (zread_ok (bmap_init vo)) in Eb by lia. rewrite E in Eb. injection Eb as <-.
  rewrite (brep_size vrep ksz cmp n b ks vs (bk_r _ _ _ _ _ _ _ HB)). pose proof (bk_l _ _ _ _ _ _ _ HB). pose proof (brep_n vo vok vrep HV ksz cmp n b _ _ (bk_r _ _ _ _ _ _ _ HB)). zpos. split; lia.
Qed.

(** the deletion loop *)
Lemma zread_ext (h h' : list (bmap K St)) hp b hq b' : h = hp ++ b :: hq -> zlen h' = zlen h -> zread h' (zlen hp) = Ret b' -> (forall j, j <> zlen hp -> zread h' j = zread h j) -> h' = hp ++ b' :: hq.
Proof.
  intros -> HL Hr Ho. apply (znth_ext b); [zl; lia|]. intros j Hj. destruct (Z.eq_dec j (zlen hp)) as [->|Hne].
  - rewrite (zread_ok b) in Hr by lia. injection Hr as ->. now rewrite znth_app_exact.
  - specialize (Ho j Hne). rewrite !(zread_ok b) in Ho by lia. injection Ho as ->. zpos.
    destruct (Z_lt_le_dec j (zlen hp)); [now rewrite !znth_app1 by lia|]. rewrite !znth_app2 by lia. now rewrite !znth_consS by lia.
Qed.
Lemma delete_body_ok n fuel : forall hp b hq m, hinv n (hp ++ b :: hq) m -> bmap_getsize b < Z.of_nat fuel ->
  exists b' m', delete_body vo ksz fuel (hp ++ b :: hq) (zlen hp * 2 ^ 32) = Ret (hp ++ b' :: hq) /\ hinv n (hp ++ b' :: hq) m' /\ bmap_getsize b' = 0.
Proof.
  induction fuel as [|fuel IH]; intros hp b hq m HI Hf.
  - pose proof (hinv_okb _ _ _ HI) as HF. unfold hsizes in HF. rewrite map_app in HF. apply Forall_app in HF as [_ HF]. cbn in HF. apply Forall_cons_iff in HF as [[HF _] _]. lia.
  - cbn [delete_body]. pose proof (hinv_okb _ _ _ HI) as HF. unfold hsizes in HF. rewrite map_app in HF. apply Forall_app in HF as [_ HF]. cbn [map] in HF. apply Forall_cons_iff in HF as [[HF1 HF2] _].
    rewrite <- (Z.add_0_r (zlen hp * 2 ^ 32)). rewrite index_valid_at by lia. cbn [bind]. destruct (0 <? bmap_getsize b) eqn:E.
    + assert (Hit : 0 <= zlen hp * 2 ^ 32 + 0 < 2 ^ 64). { pose proof (hi_nb _ _ _ HI). zl. zpos. change (2 ^ 64) with (2 ^ 32 * 2 ^ 32). nia. }
      destruct (hvalid_at n _ m (zlen hp * 2 ^ 32 + 0) HI Hit) as [i b1 p x q vp v vq Eit Hi HL Eb HB El Hx]; [rewrite iter_valid_at by lia; now rewrite E|].
      assert (i = zlen hp /\ zlen vp = 0) as [-> H0] by lia. rewrite Eit.
      destruct (hdel_at n _ m (zlen hp) b1 p x q vp v vq HI Hi HL Eb HB El Hx) as (h' & b' & -> & HI' & L' & R1 & R2 & HK). cbn [bind].
      rewrite zread_at in Eb by reflexivity. injection Eb as <-.
      assert (h' = hp ++ b' :: hq) as -> by (eapply zread_ext; eauto). rewrite H0, Z.add_0_r. eapply IH; [exact HI'|].
      rewrite (brep_size vrep ksz cmp n b' _ _ (bk_r _ _ _ _ _ _ _ HK)). rewrite (brep_size vrep ksz cmp n b _ _ (bk_r _ _ _ _ _ _ _ HB)) in Hf. zl. lia.
    + exists b, m. split; [reflexivity|]. split; [assumption|]. lia.
Qed.
Definition zeros (l : list Z) : Prop := Forall (eq 0) l.
Lemma first_nonzero t : Forall okb t -> zeros t \/ exists zs s st, t = zs ++ s :: st /\ zeros zs /\ 0 < s.
Proof.
  induction t as [|s t IH]; intros HF; [left; constructor|]. apply Forall_cons_iff in HF as [[H1 H2] HF].
  destruct (Z.eq_dec 0 s) as [<-|Hne]; [|right; exists [], s, t; split; [reflexivity|]; split; [constructor|lia]].
  destruct (IH HF) as [HZ|(zs & s & st & -> & HZ & Hs)]; [left; constructor; auto|]. right. exists (0 :: zs), s, st. split; [reflexivity|]. split; [constructor; auto|assumption].
Qed.
Lemma its_zeros zs : forall i t, zeros zs -> its i (zs ++ t) = its (i + zlen zs) t.
Proof.
  induction zs as [|z zs IH]; intros i t HZ; cbn [app its]; [change (zlen []) with 0; now rewrite Z.add_0_r|].
  apply Forall_cons_iff in HZ as [<- HZ]. cbn [Z.to_nat seq map app]. rewrite IH by assumption. f_equal. zl. lia.
Qed.
Lemma zeros_app a b : zeros (a ++ b) <-> zeros a /\ zeros b.
Proof. apply Forall_app. Qed.
Lemma delete_loop_ok n fuel f2 : forall h m sp t, hinv n h m -> hsizes h = sp ++ t -> zeros sp -> Forall (fun s => s < Z.of_nat f2) t -> (length t < fuel)%nat ->
  exists L h' m', foreach_loop fuel (delete_body vo ksz f2) h (hd (zlen h * 2 ^ 32) (its (zlen sp) t)) = Ret (L, h') /\ hinv n h' m' /\ zeros (hsizes h').
Proof.
  induction fuel as [|fuel IH]; intros h m sp t HI Hh HZ HF2 Hf; [lia|]. cbn [foreach_loop].
  pose proof (hinv_okb _ _ _ HI) as HF. pose proof HF as HFt. rewrite Hh in HFt. apply Forall_app in HFt as [_ HFt].
  destruct (first_nonzero t HFt) as [HZt|(zs & s & st & -> & HZs & Hs)].
  - rewrite <- (app_nil_r t). rewrite its_zeros by assumption. cbn [its hd]. rewrite iter_valid_end. cbn [bind]. exists [], h, m. split; [reflexivity|]. split; [assumption|]. rewrite Hh. now apply zeros_app.
  - rewrite its_zeros by assumption. rewrite its_from, from_cons by lia. cbn [hd].
    rewrite app_assoc in Hh. destruct (sizes_split h _ s st Hh) as (hp & b & hq & -> & El & Eb & E1 & E2).
    replace (zlen sp + zlen zs) with (zlen hp) by (rewrite El; zl; lia). apply Forall_app in HFt as [_ HFt]. apply Forall_cons_iff in HFt as [[Ho1 Ho2] HFt].
    apply Forall_app in HF2 as [_ HF2]. apply Forall_cons_iff in HF2 as [HF2s HF2].
    rewrite iter_valid_at by lia. replace (0 <? bmap_getsize b) with true by lia. cbn [bind]. rewrite Z.add_0_r.
    destruct (delete_body_ok n f2 hp b hq m HI ltac:(lia)) as (b' & m' & -> & HI' & Hb'). cbn [bind].
    pose proof (hi_nb _ _ _ HI') as Hnb'. pose proof (hinv_okb _ _ _ HI') as HF'.
    pose proof (next_valid_at hp b' hq 0 ltac:(lia) ltac:(lia) HF') as EN. rewrite Z.add_0_r in EN. rewrite EN. cbn [bind]. rewrite Hb', from_end by lia.
    assert (Hh' : hsizes (hp ++ b' :: hq) = (sp ++ zs ++ [0]) ++ st).
    { unfold hsizes in *. rewrite map_app. cbn [map]. rewrite E1, E2, Hb'. now rewrite <- !app_assoc. }
    destruct (IH (hp ++ b' :: hq) m' (sp ++ zs ++ [0]) st HI' Hh') as (L & h' & m'' & E & HI'' & HZ''); auto.
    { rewrite !zeros_app. repeat split; auto. repeat constructor. }
    { rewrite app_length in Hf. cbn [length] in Hf. lia. }
    replace (zlen (sp ++ zs ++ [0])) with (zlen hp + 1) in E by (rewrite El; zl; lia). rewrite E2, E. cbn [bind]. eauto 10.
Qed.
Lemma delete_all_ok n h m fuel f2 : hinv n h m -> zlen h < Z.of_nat fuel -> Forall (fun s => s < Z.of_nat f2) (hsizes h) ->
  exists L h', hbmap_foreach fuel (delete_body vo ksz f2) h = Ret (L, h') /\ hinv n h' fempty /\ zeros (hsizes h').
Proof.
  intros HI Hf HF2. pose proof (hi_nb _ _ _ HI) as Hnb. pose proof (hinv_okb _ _ _ HI) as HF. unfold hbmap_foreach.
  destruct h as [|b hq]; [cbn in Hnb; lia|].
  assert (Hs : okb (bmap_getsize b)) by (unfold hsizes in HF; cbn [map] in HF; apply Forall_cons_iff in HF as [HF1 _]; exact HF1). destruct Hs as [Hs1 Hs2].
  assert (HI0 : exists it, (let* v := iter_valid (b :: hq) 0 in if v then Ret 0 else hbmap_next_valid (b :: hq) 0) = Ret it /\ it = hd (zlen (b :: hq) * 2 ^ 32) (its 0 (hsizes (b :: hq)))).
  { rewrite iter_valid_0. cbn [bind hsizes map]. rewrite its_from by lia.
    destruct (0 <? bmap_getsize b) eqn:Es.
    - exists 0. split; [reflexivity|]. now rewrite from_cons by lia.
    - pose proof (next_valid_at [] b hq 0) as HN. cbn [app] in HN. change (zlen [] * 2 ^ 32 + 0) with 0 in HN. rewrite HN; [|lia|lia|assumption].
      eexists; split; [reflexivity|]. change (zlen []) with 0. rewrite !from_end by lia. reflexivity. }
  destruct HI0 as (it & E & Eit).
  assert (EF : forall X, (let* v := iter_valid (b :: hq) 0 in let* it := (if v then Ret 0 else hbmap_next_valid (b :: hq) 0) in X it) = (X it : out (list Z * list (bmap K St)))).
  { intros X. destruct (iter_valid (b :: hq) 0) as [v| |]; cbn [bind] in *; try discriminate. rewrite E. reflexivity. }
  rewrite EF, Eit.
  destruct (delete_loop_ok n fuel f2 (b :: hq) m [] (hsizes (b :: hq)) HI eq_refl) as (L & h' & m' & EL & HI' & HZ).
  { constructor. } { assumption. } { unfold hsizes. rewrite map_length. unfold zlen in Hf. lia. }
  change (zlen []) with 0 in EL. rewrite EL. exists L, h'. split; [reflexivity|]. split; [|assumption].
  eapply hinv_ext; [exact HI'|]. intros k. unfold fempty. symmetry.
  pose proof (buck_rng h' k (hi_nb _ _ _ HI')) as Hi. destruct (hi_b _ _ _ HI' _ Hi) as (b1 & ks & vs & Eb & HB).
  rewrite (bk_m _ _ _ _ _ _ _ HB) by reflexivity. assert (ks = []) as ->; [|reflexivity].
  destruct (zsplit_mid h' _ Hi) as (hp & b2 & hq2 & -> & Hp). rewrite zread_at in Eb by lia. injection Eb as ->.
  unfold hsizes in HZ. rewrite map_app in HZ. apply zeros_app in HZ as [_ HZ]. cbn in HZ. apply Forall_cons_iff in HZ as [HZ _].
  rewrite (brep_size vrep ksz cmp n b1 _ _ (bk_r _ _ _ _ _ _ _ HB)) in HZ. apply zlen_0. lia.
Qed.
End H.

Section HH.
Context {K V St VA : Type}.
Variable vo : vops V St VA.
Variable vok : VA -> bool.
Variable vrep : Z -> St -> list V -> Prop.
Hypothesis HV : vgood vo vok vrep.
Variable ksz : Z.
Hypothesis Hksz : 1 <= ksz.
Variable cmp : K -> K -> Z.
Hypothesis HO : total_order cmp.
Variable bs : (K -> Z) -> list K -> option Z.
Hypothesis HBS : bsearch_conforming bs.
Variable hash : K -> Z.
Hypothesis HH : hash_ok cmp hash.
Variable nb : Z.
Hypothesis Hnb : 1 <= nb < 2 ^ 32.
Notation start := (hbmap_init vo nb : list (bmap K St)).

Lemma hrun_n l n : forall h m, hinv vrep ksz cmp hash (zlen l + n) h m -> 0 <= n -> hcaller_ok vo ksz cmp bs hash h l ->
  exists rs h' m', hrun vo ksz cmp bs vok hash h l = Ret (rs, h') /\ hinv vrep ksz cmp hash n h' m' /\ mspec_run cmp m rs m' /\
    map fst rs = map (fun x => (boths vok (fst (fst x)) (snd (fst x)), snd x)) l.
Proof.
  induction l as [|[[ka va] o] l IH]; intros h m HI Hn HC; cbn [hrun].
  - do 3 eexists; split; [reflexivity|]. split; [exact HI|]. split; [constructor|reflexivity].
  - cbn [hcaller_ok] in HC. destruct HC as [Hv HC]. zl. zpos. replace (1 + zlen l + n) with (zlen l + n + 1) in HI by lia.
    destruct (hexec_ok vo vok vrep HV ksz Hksz cmp HO bs HBS hash HH (zlen l + n) ka va h m o ltac:(lia) HI Hv) as [r [h' [m' [E [HI' HS]]]]]. rewrite E in *. cbn [bind].
    destruct (IH h' m' HI' Hn HC) as [rs [h'' [m'' [-> [HH'' [HR HM]]]]]]. cbn [bind].
    do 3 eexists; split; [reflexivity|]. split; [exact HH''|]. split; [econstructor; eauto|]. cbn. now rewrite HM.
Qed.
Section One.
Variable l : list (talloc K * VA * mop K V).
Hypothesis Hv : vrep (zlen l + 1) (v_init vo) [].
Hypothesis HL : (2 * (zlen l + 1) + 4) * ksz < 2 ^ 64.
Hypothesis HC : hcaller_ok vo ksz cmp bs hash start l.
Lemma hreach : exists rs h m, hrun vo ksz cmp bs vok hash start l = Ret (rs, h) /\ mspec_run cmp fempty rs m /\ hinv vrep ksz cmp hash 1 h m /\
    map fst rs = map (fun x => (boths vok (fst (fst x)) (snd (fst x)), snd x)) l.
Proof.
  zpos. destruct (hrun_n l 1 start fempty) as (rs & h & m & E & HI & HR & HM); [apply hinit_ok; auto; lia|lia|assumption|]. exists rs, h, m. auto.
Qed.
Lemma hhistory : exists rs h m, hrun vo ksz cmp bs vok hash start l = Ret (rs, h) /\ mspec_run cmp fempty rs m /\ hholds vo cmp bs hash h m /\
    map fst rs = map (fun x => (boths vok (fst (fst x)) (snd (fst x)), snd x)) l.
Proof. destruct hreach as (rs & h & m & E & HR & HI & HM). exists rs, h, m. repeat (split; [assumption|]). split; [|assumption]. eapply hinv_hholds; eauto. Qed.
Lemma hinsert_history rs h ka va k v : hrun vo ksz cmp bs vok hash start l = Ret (rs, h) -> (forall b, zread h (buckindex hash h k) = Ret b -> bmap_getsize b < 2 ^ 32 - 1) ->
  exists m it h', mspec_run cmp fempty rs m /\ hbmap_insert vo ksz cmp bs hash ka va h k v = Ret (it, h') /\
    (it = SIZE_MAX /\ hholds vo cmp bs hash h' m /\ boths vok ka va = false \/
     it <> SIZE_MAX /\ hholds vo cmp bs hash h' (fset cmp m k v) /\ viter h' it /\
     exists k', hbmap_getkey h' it = Ret k' /\ hbmap_getval vo h' it = Ret v /\ cmp k k' = 0).
Proof.
  intros E Hb. destruct hreach as (rs' & h0 & m & E' & HR & HI & _). rewrite E in E'. injection E' as <- <-.
  destruct (hinsert_ok vo vok vrep HV ksz Hksz cmp HO bs HBS hash HH 0 ka va h m k v ltac:(lia) HI Hb) as (it & h' & EI & [(E1 & HI' & Hf)|(E1 & HI' & Hvi & HX)]);
    exists m, it, h'; (split; [assumption|]); (split; [assumption|]); [left|right]; (split; [assumption|]); (split; [eapply hinv_hholds; eauto|]); auto.
Qed.
Lemma hforeach_history rs h body fuel : hrun vo ksz cmp bs vok hash start l = Ret (rs, h) -> htotal h < Z.of_nat fuel ->
  (forall h1 it, hsizes h1 = hsizes h -> iter_valid h1 it = Ret true -> exists h2, body h1 it = Ret h2 /\ hsizes h2 = hsizes h) ->
  exists L h', hbmap_foreach fuel body h = Ret (L, h') /\ hsizes h' = hsizes h /\ StronglySorted Z.lt L /\ (forall it, In it L <-> viter h it).
Proof.
  intros E Hf HB. destruct hreach as (rs' & h0 & m & E' & HR & HI & _). rewrite E in E'. injection E' as <- <-.
  pose proof (hi_nb _ _ _ _ _ _ _ HI) as Hl. pose proof (hinv_okb vo vok vrep HV ksz cmp hash _ _ _ HI) as HF.
  assert (HX : exists h', hbmap_foreach fuel body h = Ret (its 0 (hsizes h), h') /\ hsizes h' = hsizes h).
  { eapply foreach_ok; eauto; try (rewrite zlen_hsizes; lia). unfold htotal in Hf. rewrite <- (its_len _ 0 HF) in Hf. lia. }
  destruct HX as (h' & E1 & E2).
  exists (its 0 (hsizes h)), h'. split; [assumption|]. split; [assumption|]. split; [now apply its_sorted|]. now apply its_valid.
Qed.
Lemma hdelete_history rs h fuel f2 : hrun vo ksz cmp bs vok hash start l = Ret (rs, h) -> zlen h < Z.of_nat fuel -> Forall (fun s => s < Z.of_nat f2) (hsizes h) ->
  exists L h', hbmap_foreach fuel (delete_body vo ksz f2) h = Ret (L, h') /\ Forall (eq 0) (hsizes h') /\ hholds vo cmp bs hash h' fempty.
Proof.
  intros E Hf HB. destruct hreach as (rs' & h0 & m & E' & HR & HI & _). rewrite E in E'. injection E' as <- <-.
  destruct (delete_all_ok vo vok vrep HV ksz Hksz cmp HO hash HH 1 h m fuel f2 HI Hf HB) as (L & h' & E1 & HI' & HZ). exists L, h'. split; [assumption|]. split; [assumption|]. eapply hinv_hholds; eauto.
Qed.
End One.
End HH.
