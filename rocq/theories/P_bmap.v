(** Proofs about bmap. *)
From Verif Require Import Base Cstr M_tglist S_tglist D_tglist P_tglist P_tgilist M_bmap S_bmap D_bmap.
Ltac Zify.zify_post_hook ::= Z.div_mod_to_equations.

(** what bmap needs of its value list; n: number of insertions still possible *)
Record vgood {V St VA} (vo : vops V St VA) (vok : VA -> bool) (vrep : Z -> St -> list V -> Prop) : Prop := mkVgood {
  vg_ins : forall n va s p q v, 0 <= n -> vrep (n + 1) s (p ++ q) -> exists r s', v_insert vo va s v (zlen p) = Ret (r, s') /\
    (r = 0 /\ vok va = false /\ vrep n s' (p ++ q) \/ r = 1 /\ vrep n s' (p ++ v :: q));
  vg_set : forall n s p y q v, vrep n s (p ++ y :: q) -> exists s', v_set vo s v (zlen p) = Ret (1, s') /\ vrep n s' (p ++ v :: q);
  vg_get : forall n s p y q, vrep n s (p ++ y :: q) -> v_get vo s (zlen p) = Ret y;
  vg_del : forall n s p y q, vrep n s (p ++ y :: q) -> exists r s', v_delete vo s (zlen p) = Ret (r, s') /\ vrep n s' (p ++ q);
  vg_mono : forall n n' s l, vrep n s l -> 0 <= n' <= n -> vrep n' s l;
  vg_n : forall n s l, vrep n s l -> 0 <= n }.

Lemma app_eq_len {A} (a b c d : list A) : a ++ b = c ++ d -> zlen a = zlen c -> a = c /\ b = d.
Proof.
  intros E H. assert (ztake (zlen a) (a ++ b) = ztake (zlen c) (c ++ d)) as H1 by congruence. rewrite !ztake_app_exact in H1.
  split; [assumption|]. rewrite H1 in E. now apply app_inv_head in E.
Qed.
Section VT.
Context {V : Type}.
Variable isz : Z.
Hypothesis Hisz : 1 <= isz.
Definition trepn (n : Z) (s : tgl V) (l : list V) : Prop := trep isz s l /\ 0 <= n /\ (2 * (zlen l + n) + 4) * isz < 2 ^ 64.
Lemma vgood_tglist : vgood (vops_tglist V isz) has_mem trepn.
Proof.
  split; unfold trepn; cbn [vops_tglist v_insert v_set v_get v_delete].
  - intros n va s p q v Hn' [HT [Hn HL]]. zl. zpos.
    destruct (insert_ok isz Hisz va s p q v _ HT ltac:(zl; nia) eq_refl) as [r [l' [-> H]]]. do 2 eexists; split; [reflexivity|].
    destruct H as [[-> [-> H]]|[-> H]]; [left|right]; zl; repeat (split; auto); try lia; nia.
  - intros n s p y q v [HT H]. destruct (set_ok isz s p y q v HT) as [l' [-> HT']]. zl. eauto.
  - intros n s p y q [HT H]. eapply get_ok; eauto.
  - intros n s p y q [HT [H HL]]. destruct (delete_ok isz Hisz s p y q _ HT eq_refl) as [l' [-> HT']]. zl. do 2 eexists; split; [reflexivity|]. split; [exact HT'|]. zpos. split; [lia|nia].
  - intros n n' s l [HT [Hn HL]] H. split; [exact HT|]. zpos. split; [lia|nia].
  - tauto.
Qed.
End VT.

Section VG.
Context {V : Type}.
Variable isz : Z.
Hypothesis Hisz : 1 <= isz.
Definition grepn (n : Z) (s : tgi V) (l : list V) : Prop :=
  exists ks st, grep 4 isz s ks st /\ pick st ks l /\ 0 <= n /\ zlen st + n <= 2 ^ 32 /\ (2 * (zlen ks + n) + 4) * 4 < 2 ^ 64 /\ (2 * (zlen st + n) + 4) * isz < 2 ^ 64.
Lemma gset_ok x kp s kq vs xp y xq (v : V) : grep 4 isz x (kp ++ s :: kq) vs -> pick vs (kp ++ s :: kq) (xp ++ y :: xq) -> zlen kp = zlen xp ->
  exists x' vs', tgilist_set x v (zlen xp) = Ret (1, x') /\ grep 4 isz x' (kp ++ s :: kq) vs' /\ pick vs' (kp ++ s :: kq) (xp ++ v :: xq) /\ zlen vs' = zlen vs.
Proof.
  intros HG HP HL. pose proof HG as [Gi Gv Gr Gd]. unfold tgilist_set. rewrite <- HL. rewrite (get_ok 4 (gidx x) kp s kq Gi). cbn [bind].
  assert (Hs : 0 <= s < zlen vs) by (apply Forall_app in Gr as [_ Gr]; apply Forall_cons_iff in Gr; tauto).
  destruct (zsplit_mid vs s Hs) as [vp [z [vq [-> Hvp]]]].
  destruct (set_ok isz (gval x) vp z vq v Gv) as [v' [E Gv']]. rewrite Hvp in E. rewrite E. cbn [bind].
  destruct (pick_app_inv _ _ _ _ HP) as [xp' [xq' [Ex [HP1 HP2]]]]. inversion HP2 as [|? x0 ? xq2 Hx0 HP3]; subst.
  pose proof (pick_len _ _ _ HP1) as HL1.
  apply app_eq_len in Ex as [-> Ex]; [|lia]. injection Ex as -> ->.
  assert (HO : forall k d, k <> zlen vp -> 0 <= k -> znth d (vp ++ v :: vq) k = znth d (vp ++ z :: vq) k).
  { intros k d Hne H0. destruct (Z_lt_le_dec k (zlen vp)); [now rewrite !znth_app1 by lia|]. rewrite !znth_app2 by lia. rewrite !znth_consS by lia. reflexivity. }
  assert (HNot : ~ In (zlen vp) (kp ++ kq)) by (apply NoDup_remove in Gd; tauto). rewrite in_app_iff in HNot.
  pose proof Gr as Gr'. apply Forall_app in Gr' as [Gr1 Gr2]. apply Forall_cons_iff in Gr2 as [_ Gr2].
  exists (mkTgi (gidx x) v'), (vp ++ v :: vq). split; [reflexivity|]. split.
  { split; cbn [gidx gval]; auto. eapply Forall_impl; [|exact Gr]. cbn. intros a. zl. lia. }
  split; [apply pick_app; [|constructor; [intros; apply znth_app_exact|]]|zl; lia].
  { eapply pick_ext; [exact HP1|exact Gr1|]. intros k d Hk' Hin. apply HO; [intros ->; tauto|lia]. }
  { eapply pick_ext; [exact HP3|exact Gr2|]. intros k d Hk' Hin. apply HO; [intros ->; tauto|lia]. }
Qed.
Lemma gdel_ok x kp s kq vs xp (y : V) xq : grep 4 isz x (kp ++ s :: kq) vs -> pick vs (kp ++ s :: kq) (xp ++ y :: xq) -> zlen kp = zlen xp ->
  exists x', tgilist_delete 4 x (zlen xp) = Ret (1, x') /\ grep 4 isz x' (kp ++ kq) vs /\ pick vs (kp ++ kq) (xp ++ xq).
Proof.
  intros HG HP HL. pose proof HG as [Gi Gv Gr Gd]. unfold tgilist_delete.
  destruct (delete_ok 4 ltac:(lia) (gidx x) kp s kq (zlen xp) Gi ltac:(lia)) as [i' [-> Gi']]. cbn [bind].
  destruct (pick_app_inv _ _ _ _ HP) as [xp' [xq' [Ex [HP1 HP2]]]]. inversion HP2 as [|? x0 ? xq2 Hx0 HP3]; subst.
  pose proof (pick_len _ _ _ HP1) as HL1. apply app_eq_len in Ex as [-> Ex]; [|lia]. injection Ex as -> ->.
  apply Forall_app in Gr as [Gr1 Gr2]. apply Forall_cons_iff in Gr2 as [_ Gr2].
  exists (mkTgi i' (gval x)). split; [reflexivity|]. split.
  { split; cbn [gidx gval]; auto; [apply Forall_app; auto|]. apply NoDup_remove in Gd. tauto. }
  now apply pick_app.
Qed.
Lemma split_at (ks : list Z) (p : list V) y q : zlen ks = zlen (p ++ y :: q) -> exists kp s kq, ks = kp ++ s :: kq /\ zlen kp = zlen p.
Proof. zl. zpos. intros H. apply zsplit_mid. lia. Qed.
Lemma vgood_tgilist : vgood (vops_tgilist V isz) both_mem grepn.
Proof.
  assert (H4 : 1 <= 4) by lia.
  split; unfold grepn; cbn [vops_tgilist v_insert v_set v_get v_delete].
  - intros n va s p q v Hn' [ks [st [HG [HP [Hn [H1 [H2 H3]]]]]]]. pose proof (pick_len _ _ _ HP). zl. zpos.
    destruct (gexec_ok (2 ^ 32) 4 isz H4 Hisz va s ks st (p ++ q) (LIns v (zlen p)) HG HP) as (r & x' & ks' & vs' & xs' & E & HG' & HP' & HS & L1 & L2 & _); try (clear - H1 H2 H3 Hn Hn' Zn0 Zn2 Hisz; nia).
    { cbn. unfold tgilist_getsize. rewrite (r_cnt _ _ _ (g_idx _ _ _ _ _ HG)). lia. }
    cbn [gexec] in E. change (2 ^ 32) with 4294967296 in E.
    destruct (tgilist_insert 4294967296 4 isz (fst va) (snd va) s v (zlen p)) as [[r0 s0]| |] eqn:EI; cbn [bind] in E; try discriminate. injection E as <- <-.
    do 2 eexists; split; [reflexivity|].
    inversion HS as [| |p0 q0 x0 E1 E2 E3 E4|l0 x0 pos0 Hok E1 E2 E3 E4| | |]; subst.
    + right. split; [congruence|]. apply app_eq_len in E1 as [-> ->]; [|lia].
      exists ks', vs'. repeat (split; auto); try lia; nia.
    + left. split; [congruence|]. split; [auto|]. exists ks', vs'. repeat (split; auto); try lia; nia.
  - intros n s p y q v [ks [st [HG [HP [Hn [H1 [H2 H3]]]]]]]. pose proof (pick_len _ _ _ HP) as HL.
    destruct (split_at _ _ _ _ HL) as [kp [sl [kq [-> HK]]]].
    destruct (gset_ok s kp sl kq st p y q v HG HP HK) as [x' [vs' [-> [HG' [HP' HL']]]]].
    eexists; split; [reflexivity|]. exists (kp ++ sl :: kq), vs'. rewrite HL'. auto 10.
  - intros n s p y q [ks [st [HG [HP _]]]]. rewrite (grep_get 4 isz s ks st (p ++ y :: q) (zlen p) y HG HP); [now rewrite znth_app_exact|zl; zpos; lia].
  - intros n s p y q [ks [st [HG [HP [Hn [H1 [H2 H3]]]]]]]. pose proof (pick_len _ _ _ HP) as HL.
    destruct (split_at _ _ _ _ HL) as [kp [sl [kq [-> HK]]]].
    destruct (gdel_ok s kp sl kq st p y q HG HP HK) as [x' [-> [HG' HP']]].
    do 2 eexists; split; [reflexivity|]. exists (kp ++ kq), st. zl. repeat (split; auto); lia.
  - intros n n' s l [ks [st [HG [HP [Hn [H1 [H2 H3]]]]]]] H. exists ks, st. zpos. repeat (split; auto); try lia; nia.
  - intros n s l [ks [st [HG [HP [Hn _]]]]]. exact Hn.
Qed.
End VG.

(** ---------- order facts ---------- *)
Section O.
Context {K V : Type}.
Variable cmp : K -> K -> Z.
Hypothesis HO : total_order cmp.
Lemma to_refl x : cmp x x = 0.
Proof. destruct HO as [H _]. pose proof (H x x). lia. Qed.
Lemma to_sym x y : cmp x y = 0 -> cmp y x = 0.
Proof. destruct HO as [H _]. pose proof (H x y). pose proof (H y x). lia. Qed.
Lemma to_lt_le x y z : cmp x y < 0 -> cmp y z <= 0 -> cmp x z < 0.
Proof.
  destruct HO as [H T]. intros H1 H2. destruct (Z_lt_le_dec (cmp x z) 0); [assumption|].
  assert (cmp z x <= 0) by (pose proof (H x z); pose proof (H z x); lia).
  pose proof (T y z x). pose proof (H x y). lia.
Qed.
Lemma to_le_lt x y z : cmp x y <= 0 -> cmp y z < 0 -> cmp x z < 0.
Proof.
  destruct HO as [H T]. intros H1 H2. destruct (Z_lt_le_dec (cmp x z) 0); [assumption|].
  assert (cmp z x <= 0) by (pose proof (H x z); pose proof (H z x); lia).
  pose proof (T z x y). pose proof (H y z). lia.
Qed.
Lemma to_anti x y : cmp x y < 0 -> 0 < cmp y x.
Proof. apply HO. Qed.
Lemma to_anti' x y : 0 < cmp x y -> cmp y x < 0.
Proof. apply HO. Qed.
Lemma to_eq_l x y z : cmp x y = 0 -> (cmp x z = 0 <-> cmp y z = 0).
Proof.
  destruct HO as [H T]. intros E. pose proof (to_sym _ _ E).
  pose proof (T x y z). pose proof (T y x z). pose proof (T z x y). pose proof (T z y x).
  pose proof (H x z). pose proof (H z x). pose proof (H y z). pose proof (H z y). lia.
Qed.

Fixpoint ssorted (l : list K) : Prop :=
  match l with [] => True | x :: l => Forall (fun y => cmp x y < 0) l /\ ssorted l end.
Lemma ssorted_app p q : ssorted (p ++ q) <-> ssorted p /\ ssorted q /\ Forall (fun x => Forall (fun y => cmp x y < 0) q) p.
Proof.
  induction p as [|x p IH]; cbn [app ssorted]; [intuition constructor|]. rewrite Forall_app, IH, Forall_cons_iff. tauto.
Qed.
Lemma ssorted_mid p x q : ssorted (p ++ x :: q) -> Forall (fun y => cmp y x < 0) p /\ Forall (fun y => cmp x y < 0) q.
Proof.
  intros H. apply ssorted_app in H as [_ [[H _] H2]]. split; [|assumption].
  eapply Forall_impl; [|exact H2]. intros a Ha. now apply Forall_cons_iff in Ha.
Qed.
Lemma ssorted_ordered k l : ssorted l -> ordered_for (cmp k) l.
Proof.
  intros H p x q y r ->. apply ssorted_mid in H as [_ H]. apply Forall_app in H as [_ H]. apply Forall_cons_iff in H as [H _].
  pose proof (fun E => to_le_lt k x y E H). lia.
Qed.

Fixpoint lookup (k : K) (ks : list K) (vs : list V) : option V :=
  match ks, vs with
  | k' :: ks, v :: vs => if cmp k k' =? 0 then Some v else lookup k ks vs
  | _, _ => None
  end.
Lemma lookup_app k p q : forall vp vq, zlen p = zlen vp ->
  lookup k (p ++ q) (vp ++ vq) = match lookup k p vp with Some v => Some v | None => lookup k q vq end.
Proof.
  induction p as [|x p IH]; intros [|v vp] vq H; zl; zpos; try lia; cbn [app lookup]; [reflexivity|].
  destruct (cmp k x =? 0); [reflexivity|]. apply IH. lia.
Qed.
Lemma lookup_none k ks : forall vs, Forall (fun x => cmp k x <> 0) ks -> lookup k ks vs = None.
Proof. induction ks as [|x ks IH]; intros [|v vs] H; cbn; auto. apply Forall_cons_iff in H as [H1 H2]. replace (cmp k x =? 0) with false by lia. auto. Qed.
Lemma lookup_some_in k ks : forall vs, lookup k ks vs <> None -> exists p x q, ks = p ++ x :: q /\ cmp k x = 0.
Proof.
  induction ks as [|x ks IH]; intros [|v vs] H; cbn [lookup] in H; try congruence.
  destruct (cmp k x =? 0) eqn:E; [exists [], x, ks; split; [reflexivity|lia]|]. destruct (IH vs H) as [p [y [q [-> Hy]]]]. exists (x :: p), y, q. auto.
Qed.
(** neighbours of an element are not equal to it *)
Lemma ssorted_neq k p x q : ssorted (p ++ x :: q) -> cmp k x = 0 -> Forall (fun y => cmp k y <> 0) p /\ Forall (fun y => cmp k y <> 0) q.
Proof.
  intros H E. apply ssorted_mid in H as [H1 H2]. split.
  - eapply Forall_impl; [|exact H1]. intros y Hy Ey. pose proof (to_sym _ _ Ey). pose proof (proj1 (to_eq_l k x y E) Ey). pose proof (to_anti _ _ Hy). lia.
  - eapply Forall_impl; [|exact H2]. cbn; intros y Hy Ey. pose proof (proj1 (to_eq_l k x y E) Ey). lia.
Qed.
Lemma lookup_at k p x q vp v vq : ssorted (p ++ x :: q) -> zlen p = zlen vp -> cmp k x = 0 -> lookup k (p ++ x :: q) (vp ++ v :: vq) = Some v.
Proof.
  intros HS HL E. rewrite lookup_app by assumption. rewrite (lookup_none k p) by (apply (proj1 (ssorted_neq k p x q HS E))). cbn [lookup]. now rewrite E.
Qed.
Lemma lookup_not k p x q vp v vq : zlen p = zlen vp -> cmp k x <> 0 -> lookup k (p ++ x :: q) (vp ++ v :: vq) = lookup k (p ++ q) (vp ++ vq).
Proof.
  intros HL E. rewrite !lookup_app by assumption. destruct (lookup k p vp); [reflexivity|]. cbn [lookup]. now replace (cmp k x =? 0) with false by lia.
Qed.
Lemma lookup_del k p x q vp vq : ssorted (p ++ x :: q) -> zlen p = zlen vp -> cmp k x = 0 -> lookup k (p ++ q) (vp ++ vq) = None.
Proof. intros HS HL E. apply lookup_none. apply Forall_app. exact (ssorted_neq k p x q HS E). Qed.
End O.

Section B.
Context {K V St VA : Type}.
Variable vo : vops V St VA.
Variable vok : VA -> bool.
Variable vrep : Z -> St -> list V -> Prop.
Hypothesis HV : vgood vo vok vrep.
Variable ksz : Z.
Hypothesis Hksz : 1 <= ksz.
Variable cmp : K -> K -> Z.
Hypothesis HO : total_order cmp.
Variable bs : (K -> Z) -> list K -> option Z.
Hypothesis HBS : bsearch_conforming bs.

(** position found by tg_pos_loop *)
Lemma pos_loop_ok l xs o fuel : forall hi lo,
  trep ksz l xs -> ssorted cmp xs ->
  0 <= hi <= lo -> lo < zlen xs -> lo - hi < Z.of_nat fuel ->
  (forall i, 0 <= i < hi -> 0 <= cmp o (znth o xs i)) ->
  (forall i, lo < i < zlen xs -> cmp o (znth o xs i) <= 0) ->
  exists r, tg_pos_loop fuel cmp l o hi lo = Ret r /\ 0 <= r <= zlen xs /\
    (forall i, 0 <= i < r -> 0 <= cmp o (znth o xs i)) /\
    (forall i, r <= i < zlen xs -> cmp o (znth o xs i) <= 0).
Proof.
  induction fuel as [|fuel IH]; intros hi lo HT HS Hh Hlo Hf H1 H2; [lia|].
  cbn [tg_pos_loop].
  assert (HX : zlen xs < 2 ^ 64) by (eapply (trep_u64 ksz Hksz); eauto).
  assert (HSS : forall i j, 0 <= i -> i <= j -> j < zlen xs -> cmp (znth o xs i) (znth o xs j) <= 0).
  { intros i j Hi Hij Hj. destruct (Z.eq_dec i j) as [->|Hne]; [rewrite (to_refl cmp HO); lia|].
    destruct (zsplit_mid xs i ltac:(lia)) as [p [x [q [-> Hp]]]]. zl. subst i. rewrite znth_app_exact.
    apply ssorted_mid in HS as [_ HS]. rewrite znth_app2 by lia. rewrite znth_consS by lia.
    pose proof (Forall_znth _ o _ (j - zlen p - 1) HS ltac:(lia)). cbn in *. lia. }
  destruct HO as [Ha Ht].
  rewrite (u64_id (lo - hi)) by lia. rewrite u64_id by lia.
  set (c := hi + (lo - hi) / 2). assert (Hc : hi <= c <= lo) by lia.
  rewrite (get_znth ksz l xs c o HT) by lia. cbn [bind].
  destruct (hi =? lo) eqn:E.
  - replace c with lo in * by lia. destruct (0 <? cmp o (znth o xs lo)) eqn:R.
    + rewrite u64_id by lia. eexists; split; [reflexivity|]. split; [lia|]. split; intros i Hi.
      * destruct (Z.eq_dec i lo); [subst; lia|]. apply H1; lia.
      * apply H2; lia.
    + eexists; split; [reflexivity|]. split; [lia|]. split; intros i Hi.
      * apply H1; lia.
      * destruct (Z.eq_dec i lo); [subst; lia|]. apply H2; lia.
  - assert (Hcl : c < lo) by lia.
    set (r := cmp o (znth o xs c)).
    destruct (r <? 0) eqn:R1; [|destruct (0 <? r) eqn:R2].
    + destruct (c =? 0) eqn:C0.
      * assert (hi = 0) by lia. subst hi. change (0 <? 0) with false; cbv iota.
        apply IH; auto; try lia. intros i Hi. apply (Ht _ (znth o xs c)); [subst r; lia|apply HSS; lia].
      * rewrite (u64_id (c - 1)) by lia.
        assert (HQ : exists hi', (if c - 1 <? hi then c - 1 else hi) = hi' /\ 0 <= hi' <= hi /\ hi' <= c - 1 /\ (hi' = hi \/ hi' = c - 1)).
        { destruct (c - 1 <? hi) eqn:?; eexists; split; try reflexivity; lia. }
        destruct HQ as [hi' [-> HQ]]. apply IH; auto; try lia.
        -- intros i Hi. apply H1. lia.
        -- intros i Hi. apply (Ht _ (znth o xs c)); [subst r; lia|apply HSS; lia].
    + rewrite (u64_id (c + 1)) by lia. replace (lo <? c + 1) with false by lia. apply IH; auto; try lia.
      intros i Hi. assert (cmp (znth o xs i) (znth o xs c) <= 0) by (apply HSS; lia).
      destruct (Z_lt_le_dec (cmp o (znth o xs i)) 0) as [Hl|]; [|lia].
      assert (cmp o (znth o xs c) <= 0) by (apply (Ht _ (znth o xs i)); lia). subst r. lia.
    + replace (c <? c) with false by lia. apply IH; auto; try lia.
      * intros i Hi. assert (cmp (znth o xs i) (znth o xs c) <= 0) by (apply HSS; lia).
        assert (cmp (znth o xs i) o <= 0).
        { apply (Ht _ (znth o xs c)); [lia|]. destruct (Z_le_gt_dec (cmp (znth o xs c) o) 0); [assumption|].
          assert (cmp o (znth o xs c) < 0) by (apply Ha; lia). subst r; lia. }
        destruct (Z_lt_le_dec (cmp o (znth o xs i)) 0) as [Hl|]; [|lia].
        assert (0 < cmp (znth o xs i) o) by (apply Ha; lia). lia.
      * intros i Hi. apply (Ht _ (znth o xs c)); [subst r; lia|apply HSS; lia].
Qed.

(** insertion of an absent key *)
Lemma ins_sorted_ok ka l xs key : trep ksz l xs -> ssorted cmp xs -> (2 * zlen xs + 4) * ksz < 2 ^ 64 -> Forall (fun x => cmp key x <> 0) xs ->
  exists r l', tglist_insert_sorted ksz ka cmp l key = Ret (r, l') /\
    (r = SIZE_MAX /\ l' = l /\ has_mem ka = false \/
     exists p q, xs = p ++ q /\ r = zlen p /\ trep ksz l' (p ++ key :: q) /\ ssorted cmp (p ++ key :: q)).
Proof.
  intros HT HS HL HN. unfold tglist_insert_sorted, tglist_sorted_insert_pos_impl. rewrite (r_cnt _ _ _ HT).
  assert (HX : zlen xs < 2 ^ 64 - 1) by (zpos; nia).
  assert (HP : exists r, (if zlen xs =? 0 then Ret 0 else tg_pos_loop (S (Z.to_nat (zlen xs))) cmp l key 0 (u64 (zlen xs - 1))) = Ret r /\ 0 <= r <= zlen xs /\
    (forall i, 0 <= i < r -> 0 <= cmp key (znth key xs i)) /\ (forall i, r <= i < zlen xs -> cmp key (znth key xs i) <= 0)).
  { zpos. destruct (zlen xs =? 0) eqn:E; [eexists; split; [reflexivity|]; split; [lia|]; split; intros; lia|].
    rewrite u64_id by lia. apply pos_loop_ok; auto; try lia; intros; lia. }
  destruct HP as [r [-> [Hr [H1 H2]]]]. cbn [bind].
  unfold SIZE_MAX. replace (r =? 18446744073709551615) with false by lia.
  destruct (zsplit r xs) as [p [q [-> Hp]]]; [lia|]. subst r.
  destruct (insert_ok ksz Hksz ka l p q key _ HT HL eq_refl) as [r [l' [-> H]]]. cbn [bind].
  destruct H as [[-> [-> H]]|[-> H]]; cbn [Z.eqb negb]; do 2 eexists; (split; [reflexivity|]); [left; auto|right].
  exists p, q. repeat (split; auto).
  apply Forall_app in HN as [N1 N2].
  assert (P1 : Forall (fun x => cmp x key < 0) p).
  { apply Forall_forall. intros x Hx. destruct (In_znth key _ _ Hx) as [i [Hi <-]]. pose proof (H1 i ltac:(lia)) as Hc. rewrite znth_app1 in Hc by lia.
    pose proof (Forall_znth _ key _ i N1 ltac:(lia)). cbn in *. apply (to_anti' cmp HO). lia. }
  assert (P2 : Forall (fun x => cmp key x < 0) q).
  { apply Forall_forall. intros x Hx. destruct (In_znth key _ _ Hx) as [i [Hi <-]]. zpos. pose proof (H2 (zlen p + i) ltac:(zl; lia)) as Hc. rewrite znth_app2 in Hc by lia.
    replace (zlen p + i - zlen p) with i in Hc by lia.
    pose proof (Forall_znth _ key _ i N2 ltac:(lia)). cbn in *. lia. }
  apply ssorted_app in HS as [S1 [S2 S3]]. apply ssorted_app. split; [assumption|]. split; [cbn; auto|].
  apply Forall_forall. intros x Hx. constructor; [now apply (proj1 (Forall_forall _ _) P1)|]. now apply (proj1 (Forall_forall _ _) S3).
Qed.

Record brep (n : Z) (b : bmap K St) (ks : list K) (vs : list V) : Prop := mkBrep {
  br_k : trep ksz (bkeys b) ks;
  br_l : (2 * (zlen ks + n) + 4) * ksz < 2 ^ 64;
  br_v : vrep n (bvals b) vs;
  br_e : zlen ks = zlen vs;
  br_s : ssorted cmp ks }.
Lemma brep_n n b ks vs : brep n b ks vs -> 0 <= n.
Proof. intros H. eapply vg_n; [exact HV|]. apply (br_v _ _ _ _ H). Qed.
Lemma brep_mono n n' b ks vs : brep n b ks vs -> 0 <= n' <= n -> brep n' b ks vs.
Proof. intros [H1 H2 H3 H4 H5] Hn. split; auto; [nia|]. eapply vg_mono; eauto. Qed.
Lemma brep_size n b ks vs : brep n b ks vs -> bmap_getsize b = zlen ks.
Proof. intros H. apply (r_cnt _ _ _ (br_k _ _ _ _ H)). Qed.
Lemma brep_63 n b ks vs : brep n b ks vs -> zlen ks < 2 ^ 63 - 1.
Proof. intros H. pose proof (brep_n _ _ _ _ H). destruct H as [_ H _ _ _]. zpos. nia. Qed.

Inductive found (k : K) (i : Z) (ks : list K) (vs : list V) : Prop :=
| FNone : i = -1 -> Forall (fun x => cmp k x <> 0) ks -> lookup cmp k ks vs = None -> found k i ks vs
| FSome p x q vp v vq : ks = p ++ x :: q -> vs = vp ++ v :: vq -> zlen p = zlen vp -> i = zlen vp -> cmp k x = 0 -> lookup cmp k ks vs = Some v -> found k i ks vs.
Lemma vsplit (ks : list K) (vs : list V) p x q : zlen ks = zlen vs -> ks = p ++ x :: q -> exists vp v vq, vs = vp ++ v :: vq /\ zlen vp = zlen p.
Proof. intros H ->. zl. zpos. apply zsplit_mid. lia. Qed.
Lemma find_ok n b ks vs k : brep n b ks vs -> found k (bmap_find cmp bs b k) ks vs.
Proof.
  intros HB. unfold bmap_find. rewrite (brep_size _ _ _ _ HB). pose proof (r_mem _ _ _ (br_k _ _ _ _ HB)) as [tl HM].
  rewrite HM, ztake_app_exact. pose proof (HBS (cmp k) ks (ssorted_ordered cmp HO k ks (br_s _ _ _ _ HB))) as HB2.
  destruct (bs (cmp k) ks) as [i|].
  - destruct HB2 as [p [x [q [E [<- Hx]]]]]. destruct (vsplit _ _ _ _ _ (br_e _ _ _ _ HB) E) as [vp [v [vq [Ev El]]]].
    eapply FSome; eauto. subst. apply lookup_at; auto. apply (br_s _ _ _ _ HB).
  - apply FNone; auto. now apply lookup_none.
Qed.
Lemma contains_ok n b ks vs k : brep n b ks vs -> bmap_contains cmp bs b k = true <-> lookup cmp k ks vs <> None.
Proof.
  intros HB. unfold bmap_contains. destruct (find_ok n b ks vs k HB) as [-> _ ->|? ? ? ? ? ? _ _ _ -> _ ->]; [cbn; intuition congruence|].
  zpos. replace (zlen vp =? -1) with false by lia. cbn. intuition congruence.
Qed.
Lemma getkey_ok n b p x q vs : brep n b (p ++ x :: q) vs -> bmap_getkey b (zlen p) = Ret x.
Proof. intros HB. unfold bmap_getkey. eapply get_ok. apply (br_k _ _ _ _ HB). Qed.
Lemma getval_ok n b ks vp v vq : brep n b ks (vp ++ v :: vq) -> bmap_getval vo b (zlen vp) = Ret v.
Proof. intros HB. unfold bmap_getval. eapply vg_get; [exact HV|]. apply (br_v _ _ _ _ HB). Qed.
Lemma bget_ok n b ks vs k : brep n b ks vs -> bmap_get vo cmp bs b k = Ret (lookup cmp k ks vs).
Proof.
  intros HB. unfold bmap_get. destruct (find_ok n b ks vs k HB) as [-> _ ->|p x q vp v vq E1 E2 E3 -> E4 ->]; [reflexivity|].
  zpos. replace (zlen vp =? -1) with false by lia. subst vs. erewrite getval_ok by eauto. reflexivity.
Qed.
Lemma setvalue_ok n b ks vp y vq v : brep n b ks (vp ++ y :: vq) -> exists b', bmap_setvalue vo b v (zlen vp) = Ret (1, b') /\ brep n b' ks (vp ++ v :: vq) /\ bkeys b' = bkeys b.
Proof.
  intros [H1 H2 H3 H4 H5]. unfold bmap_setvalue. destruct (vg_set _ _ _ HV _ _ _ _ _ v H3) as [s' [-> Hs]]. cbn [bind].
  eexists; split; [reflexivity|]. split; [|reflexivity]. split; cbn [bkeys bvals]; auto. zl. lia.
Qed.
Lemma bdelete_ok n b p x q vp v vq : brep n b (p ++ x :: q) (vp ++ v :: vq) -> zlen p = zlen vp ->
  exists b', bmap_delete vo ksz b (zlen vp) = Ret b' /\ brep n b' (p ++ q) (vp ++ vq).
Proof.
  intros [H1 H2 H3 H4 H5] HL. unfold bmap_delete.
  destruct (delete_ok ksz Hksz (bkeys b) p x q (zlen vp) H1 ltac:(lia)) as [ks' [-> HK]]. cbn [bind].
  destruct (vg_del _ _ _ HV _ _ _ _ _ H3) as [r [s' [-> Hs]]]. cbn [bind].
  eexists; split; [reflexivity|]. split; cbn [bkeys bvals]; auto; zl; [nia|lia|].
  apply ssorted_app in H5 as [S1 [[_ S2] S3]]. apply ssorted_app. split; [assumption|]. split; [assumption|].
  eapply Forall_impl; [|exact S3]. intros a Ha. now apply Forall_cons_iff in Ha.
Qed.
Lemma nocheck_ok n ka va b ks vs k v : 0 <= n -> brep (n + 1) b ks vs -> Forall (fun x => cmp k x <> 0) ks ->
  exists r ss b', bmap_insert_nocheck vo ksz cmp ka va b k v = Ret (r, ss, b') /\
    (r = -1 /\ brep n b' ks vs /\ (ss = -1 /\ has_mem ka = false \/ 0 <= ss <= zlen ks /\ vok va = false) \/
     exists p q vp vq, ks = p ++ q /\ vs = vp ++ vq /\ zlen p = zlen vp /\ r = zlen vp /\ ss = zlen vp /\ brep n b' (p ++ k :: q) (vp ++ v :: vq)).
Proof.
  intros Hn HB HN. pose proof (brep_63 _ _ _ _ HB). pose proof HB as [H1 H2 H3 H4 H5]. unfold bmap_insert_nocheck.
  destruct (ins_sorted_ok ka _ _ k H1 H5 ltac:(zpos; nia) HN) as [p0 [l' [-> [[-> [-> Hm]]|[p [q [-> [-> [HT HS]]]]]]]]]; cbn [bind].
  - change (s64 SIZE_MAX) with (-1). cbn [Z.eqb Pos.eqb]. do 3 eexists; split; [reflexivity|]. left. split; [reflexivity|]. split; [|left; auto].
    destruct b as [bk bv]; cbn [bkeys bvals] in *. eapply brep_mono; [exact HB|lia].
  - zl. zpos. assert (Hs : s64 (zlen p) = zlen p) by (apply s64_id; lia). rewrite Hs. replace (zlen p =? -1) with false by lia.
    destruct (zsplit (zlen p) vs) as [vp [vq [-> Hp]]]; [lia|].
    rewrite <- Hp. destruct (vg_ins _ _ _ HV n va (bvals b) vp vq v Hn H3) as [r [s' [-> [[-> [Hf Hr]]|[-> Hr]]]]]; cbn [bind Z.eqb negb].
    + destruct (delete_ok ksz Hksz l' p k q (zlen vp) HT ltac:(lia)) as [l2 [-> HT2]]. cbn [bind]. do 3 eexists; split; [reflexivity|]. left. split; [reflexivity|].
      split; [|right; split; [lia|assumption]]. split; cbn [bkeys bvals]; auto; zl; [nia|lia].
    + do 3 eexists; split; [reflexivity|]. right. exists p, q, vp, vq. repeat (split; [reflexivity||lia|]). split; cbn [bkeys bvals]; auto; zl; try lia; nia.
Qed.
Lemma binsert_ok n ka va b ks vs k v : 0 <= n -> brep (n + 1) b ks vs ->
  exists i b', bmap_insert vo ksz cmp bs ka va b k v = Ret (i, b') /\
    (brep n b' ks vs /\ boths vok ka va = false /\ (i = -1 /\ has_mem ka = false \/ 0 <= i <= zlen ks /\ vok va = false) \/
     exists ks' vs', brep n b' ks' vs' /\ 0 <= i < zlen ks' /\ (forall d, cmp k (znth d ks' i) = 0) /\
       (forall k', lookup cmp k' ks' vs' = if cmp k k' =? 0 then Some v else lookup cmp k' ks vs)).
Proof.
  intros Hn HB. unfold bmap_insert, boths.
  destruct (find_ok _ _ _ _ k HB) as [-> HN _|p x q vp y vq E1 E2 E3 -> E4 _].
  - cbn [Z.eqb Pos.eqb]. destruct (nocheck_ok n ka va b ks vs k v Hn HB HN) as (r & ss & b' & -> & [(-> & HB' & HF)|(p & q & vp & vq & -> & -> & HL & -> & -> & HB')]); cbn [bind].
    + do 2 eexists; split; [reflexivity|]. left. split; [assumption|]. split; [|assumption]. destruct HF as [[_ ->]|[_ ->]]; [reflexivity|apply andb_false_r].
    + do 2 eexists; split; [reflexivity|]. right. do 2 eexists; split; [exact HB'|]. zl. zpos. split; [lia|]. split.
      { intros d. rewrite <- HL. rewrite znth_app_exact. now apply to_refl. }
      intros k'. destruct (cmp k k' =? 0) eqn:E.
      * apply lookup_at; auto; [apply (br_s _ _ _ _ HB')|]. apply (to_sym cmp HO). lia.
      * apply lookup_not; auto. intros E'. apply (to_sym cmp HO) in E'. lia.
  - zpos. replace (zlen vp =? -1) with false by lia. subst ks vs.
    destruct (setvalue_ok _ _ _ _ _ _ v HB) as [b' [E [HB' _]]]. unfold bmap_setvalue in E.
    destruct (v_set vo (bvals b) v (zlen vp)) as [[r s]| |]; cbn [bind] in *; try discriminate. injection E as -> <-.
    do 2 eexists; split; [reflexivity|]. right. do 2 eexists; split; [eapply brep_mono; [exact HB'|lia]|]. zl. zpos. split; [lia|]. split.
    { intros d. rewrite <- E3. now rewrite znth_app_exact. }
    intros k'. destruct (cmp k k' =? 0) eqn:E.
    + apply lookup_at; auto; [apply (br_s _ _ _ _ HB')|]. apply (to_eq_l cmp HO k' k); [apply (to_sym cmp HO); lia|assumption].
    + assert (Hne : cmp k' x <> 0). { intros E'. assert (cmp k k' = 0); [|lia]. apply (to_sym cmp HO). apply (to_eq_l cmp HO k' x k E'). now apply (to_sym cmp HO). }
      now rewrite !lookup_not by auto.
Qed.

Definition holds (n : Z) (b : bmap K St) (m : fmap K V) : Prop := exists ks vs, brep n b ks vs /\ forall k, m k = lookup cmp k ks vs.
Lemma bexec_ok n ka va b m o : 0 <= n -> holds (n + 1) b m -> bvalid b o ->
  exists r b' m', bexec vo ksz cmp bs ka va b o = Ret (r, b') /\ holds n b' m' /\ mspec cmp (boths vok ka va) m o r m'.
Proof.
  intros Hn [ks [vs [HB Hm]]] Hva. pose proof (brep_mono (n + 1) n _ _ _ HB ltac:(lia)) as HB0.
  destruct o as [k v|k|k|k|pos|v pos]; cbn [bexec bvalid] in *.
  - destruct (binsert_ok n ka va b ks vs k v Hn HB) as (i & b' & -> & [(HB' & Hf & _)|(ks' & vs' & HB' & _ & _ & HL)]); cbn [bind].
    + do 3 eexists; split; [reflexivity|]. split; [exists ks, vs; split; [exact HB'|exact Hm]|]. now apply MsInsertOom.
    + do 3 eexists; split; [reflexivity|]. split; [exists ks', vs'; split; [exact HB'|]|constructor]. intros k'. unfold fset. now rewrite HL, Hm.
  - erewrite bget_ok by eauto. cbn [bind]. rewrite <- Hm. do 3 eexists; split; [reflexivity|]. split; [exists ks, vs; eauto|constructor].
  - do 3 eexists; split; [reflexivity|]. split; [exists ks, vs; split; [exact HB0|exact Hm]|]. constructor. rewrite Hm. eapply contains_ok; eauto.
  - destruct (find_ok _ _ _ _ k HB) as [-> HN E|p x q vp y vq E1 E2 E3 -> E4 E5].
    + do 3 eexists; split; [reflexivity|]. split; [exists ks, vs; split; [exact HB0|exact Hm]|]. constructor. now rewrite Hm.
    + zpos. replace (zlen vp =? -1) with false by lia. subst ks vs. erewrite getval_ok by eauto. rewrite <- E3. erewrite getkey_ok by eauto. cbn [bind].
      do 3 eexists; split; [reflexivity|]. split; [do 2 eexists; split; [exact HB0|exact Hm]|]. constructor; [|assumption]. now rewrite Hm.
  - rewrite (brep_size _ _ _ _ HB) in Hva. destruct (zsplit_mid ks pos Hva) as [p [x [q [E <-]]]]. destruct (vsplit _ _ _ _ _ (br_e _ _ _ _ HB) E) as [vp [v [vq [-> El]]]]. subst ks.
    erewrite getkey_ok by eauto. cbn [bind]. destruct (bdelete_ok _ _ _ _ _ _ _ _ HB0 (eq_sym El)) as [b' [E HB']]. rewrite El in E. rewrite E. cbn [bind].
    do 3 eexists; split; [reflexivity|]. split; [do 2 eexists; split; [exact HB'|]|apply MsDelete].
    + intros k'. unfold fdel. destruct (cmp x k' =? 0) eqn:Ek.
      * symmetry. eapply (lookup_del cmp HO k' p x q); [apply (br_s _ _ _ _ HB)|lia|]. apply (to_sym cmp HO). lia.
      * rewrite Hm. apply lookup_not; [lia|]. intros E'. apply (to_sym cmp HO) in E'. lia.
    + rewrite Hm, lookup_at; [discriminate|exact HO|apply (br_s _ _ _ _ HB)|lia|now apply to_refl].
  - rewrite (brep_size _ _ _ _ HB) in Hva. destruct (zsplit_mid ks pos Hva) as [p [x [q [E <-]]]]. destruct (vsplit _ _ _ _ _ (br_e _ _ _ _ HB) E) as [vp [y [vq [-> El]]]]. subst ks.
    erewrite getkey_ok by eauto. cbn [bind]. destruct (setvalue_ok _ _ _ _ _ _ v HB0) as [b' [E [HB' _]]]. rewrite El in E. rewrite E. cbn [bind].
    do 3 eexists; split; [reflexivity|]. split; [do 2 eexists; split; [exact HB'|]|apply MsSetvalue].
    + intros k'. unfold fset. destruct (cmp x k' =? 0) eqn:Ek.
      * symmetry. apply lookup_at; [exact HO|apply (br_s _ _ _ _ HB)|lia|]. apply (to_sym cmp HO). lia.
      * rewrite Hm. rewrite !lookup_not; auto; try lia; intros E'; apply (to_sym cmp HO) in E'; lia.
    + rewrite Hm, lookup_at; [discriminate|exact HO|apply (br_s _ _ _ _ HB)|lia|now apply to_refl].
Qed.
Lemma brun_ok h : forall b m, holds (zlen h) b m -> bcaller_ok vo ksz cmp bs b h ->
  exists rs b' m', brun vo ksz cmp bs vok b h = Ret (rs, b') /\ holds 0 b' m' /\ mspec_run cmp m rs m' /\
    map fst rs = map (fun x => (boths vok (fst (fst x)) (snd (fst x)), snd x)) h.
Proof.
  induction h as [|[[ka va] o] h IH]; intros b m HH HC; cbn [brun].
  - do 3 eexists; split; [reflexivity|]. split; [exact HH|]. split; [constructor|reflexivity].
  - cbn [bcaller_ok] in HC. destruct HC as [Hv HC]. zl. zpos. rewrite Z.add_comm in HH.
    destruct (bexec_ok (zlen h) ka va b m o ltac:(lia) HH Hv) as [r [b' [m' [E [HH' HS]]]]]. rewrite E in *. cbn [bind].
    destruct (IH b' m' HH' HC) as [rs [b'' [m'' [-> [HH'' [HR HM]]]]]]. cbn [bind].
    do 3 eexists; split; [reflexivity|]. split; [exact HH''|]. split; [econstructor; eauto|]. cbn. now rewrite HM.
Qed.
Lemma holds_bholds n b m : holds n b m -> bholds vo cmp bs b m.
Proof.
  intros [ks [vs [HB Hm]]]. pose proof (brep_size _ _ _ _ HB) as Hsz. unfold bholds. rewrite Hsz. split; [|split; [|split]].
  - intros i Hi. destruct (zsplit_mid ks i Hi) as [p [x [q [E <-]]]]. destruct (vsplit _ _ _ _ _ (br_e _ _ _ _ HB) E) as [vp [y [vq [-> El]]]]. subst ks.
    exists x, y. split; [eapply getkey_ok; eauto|]. split; [rewrite <- El; eapply getval_ok; eauto|].
    rewrite Hm. apply lookup_at; [exact HO|apply (br_s _ _ _ _ HB)|lia|now apply to_refl].
  - intros i j Hi Hj. destruct (zsplit_mid ks i ltac:(lia)) as [p [x [q [E <-]]]]. subst ks.
    exists x, (znth x q (j - zlen p - 1)). split; [eapply getkey_ok; eauto|]. split.
    + unfold bmap_getkey. rewrite (get_znth ksz _ _ j x (br_k _ _ _ _ HB)) by lia. rewrite znth_app2 by lia. now rewrite znth_consS by lia.
    + pose proof (br_s _ _ _ _ HB) as HS. apply ssorted_mid in HS as [_ HS]. zl. apply (Forall_znth _ x _ (j - zlen p - 1) HS). lia.
  - intros k Hk. rewrite Hm in Hk. destruct (lookup_some_in cmp k ks vs Hk) as [p [x [q [E Hx]]]]. exists (zlen p), x. subst ks. zl. zpos. split; [lia|]. split; [eapply getkey_ok; eauto|assumption].
  - intros k. rewrite Hm. eapply bget_ok; eauto.
Qed.
End B.

(** ---------- statements about histories ---------- *)
Section BH.
Context {K V St VA : Type}.
Variable vo : vops V St VA.
Variable vok : VA -> bool.
Variable vrep : Z -> St -> list V -> Prop.
Hypothesis HV : vgood vo vok vrep.
Variable ksz : Z.
Hypothesis Hksz : 1 <= ksz.
Variable cmp : K -> K -> Z.
Hypothesis HO : total_order cmp.
Variable bs : (K -> Z) -> list K -> option Z.
Hypothesis HBS : bsearch_conforming bs.

Lemma binit n : vrep n (v_init vo) [] -> (2 * n + 4) * ksz < 2 ^ 64 -> holds vrep ksz cmp n (bmap_init vo) fempty.
Proof. intros Hv HL. exists [], []. split; [|reflexivity]. split; cbn [bkeys bvals bmap_init]; auto; try exact I. apply init_trep. Qed.
Lemma bhistory h : vrep (zlen h) (v_init vo) [] -> (2 * zlen h + 4) * ksz < 2 ^ 64 -> bcaller_ok vo ksz cmp bs (bmap_init vo) h ->
  exists rs b m, brun vo ksz cmp bs vok (bmap_init vo) h = Ret (rs, b) /\ mspec_run cmp fempty rs m /\ bholds vo cmp bs b m /\
    map fst rs = map (fun x => (boths vok (fst (fst x)) (snd (fst x)), snd x)) h.
Proof.
  intros Hv HL HC. destruct (brun_ok vo vok vrep HV ksz Hksz cmp HO bs HBS h _ _ (binit _ Hv HL) HC) as (rs & b & m & E & HH & HR & HM).
  exists rs, b, m. split; [assumption|]. split; [assumption|]. split; [|assumption]. eapply holds_bholds; eauto.
Qed.
(** any state reached before one more operation *)
Lemma brun_n h n : forall b m, holds vrep ksz cmp (zlen h + n) b m -> 0 <= n -> bcaller_ok vo ksz cmp bs b h ->
  exists rs b' m', brun vo ksz cmp bs vok b h = Ret (rs, b') /\ holds vrep ksz cmp n b' m' /\ mspec_run cmp m rs m'.
Proof.
  induction h as [|[[ka va] o] h IH]; intros b m HH Hn HC; cbn [brun].
  - do 3 eexists; split; [reflexivity|]. split; [exact HH|constructor].
  - cbn [bcaller_ok] in HC. destruct HC as [Hv HC]. zl. zpos. replace (1 + zlen h + n) with (zlen h + n + 1) in HH by lia.
    destruct (bexec_ok vo vok vrep HV ksz Hksz cmp HO bs HBS (zlen h + n) ka va b m o ltac:(lia) HH Hv) as [r [b' [m' [E [HH' HS]]]]]. rewrite E in *. cbn [bind].
    destruct (IH b' m' HH' Hn HC) as [rs [b'' [m'' [-> [HH'' HR]]]]]. cbn [bind].
    do 3 eexists; split; [reflexivity|]. split; [exact HH''|econstructor; eauto].
Qed.
Definition insert_denotes (b' : bmap K St) (i : Z) (k : K) (v : V) : Prop :=
  0 <= i < bmap_getsize b' /\ exists k', bmap_getkey b' i = Ret k' /\ cmp k k' = 0 /\ bmap_getval vo b' i = Ret v.
Lemma binsert_history h rs b ka va k v : vrep (zlen h + 1) (v_init vo) [] -> (2 * (zlen h + 1) + 4) * ksz < 2 ^ 64 -> bcaller_ok vo ksz cmp bs (bmap_init vo) h ->
  brun vo ksz cmp bs vok (bmap_init vo) h = Ret (rs, b) ->
  exists m i b', mspec_run cmp fempty rs m /\ bmap_insert vo ksz cmp bs ka va b k v = Ret (i, b') /\
    (bholds vo cmp bs b' m /\ boths vok ka va = false /\ (i = -1 \/ vok va = false) \/
     bholds vo cmp bs b' (fset cmp m k v) /\ insert_denotes b' i k v).
Proof.
  intros Hv HL HC E. destruct (brun_n h 1 _ _ (binit _ Hv HL) ltac:(lia) HC) as (rs' & b0 & m & E' & HH & HR). rewrite E in E'. injection E' as <- <-.
  destruct HH as (ks & vs & HB & Hm).
  destruct (binsert_ok vo vok vrep HV ksz Hksz cmp HO bs HBS 0 ka va b ks vs k v ltac:(lia) HB) as (i & b' & EI & [(HB' & Hf & Hi)|(ks' & vs' & HB' & Hi & Hk & HL')]);
    exists m, i, b'; (split; [assumption|]); (split; [assumption|]).
  - left. split; [eapply (holds_bholds vo vok vrep HV ksz cmp HO bs HBS 0); exists ks, vs; eauto|]. split; [assumption|]. tauto.
  - right. split; [eapply (holds_bholds vo vok vrep HV ksz cmp HO bs HBS 0); exists ks', vs'; split; [exact HB'|]; intros k'; unfold fset; now rewrite HL', Hm|].
    unfold insert_denotes. rewrite (brep_size _ _ _ _ _ _ _ HB'). split; [lia|]. destruct (zsplit_mid ks' i Hi) as (p & x & q & Ek & Ep). 
    destruct (vsplit _ _ _ _ _ (br_e _ _ _ _ _ _ _ HB') Ek) as (vp & y & vq & -> & El). subst ks'. specialize (Hk x). rewrite <- Ep in *. rewrite znth_app_exact in Hk.
    exists x. split; [eapply getkey_ok; eauto|]. split; [assumption|]. rewrite <- El. erewrite getval_ok by eauto. f_equal.
    specialize (HL' k). rewrite (to_refl cmp HO) in HL'. cbn [Z.eqb] in HL'. rewrite (lookup_at cmp HO) in HL'; auto; [congruence|]. apply (br_s _ _ _ _ _ _ _ HB').
Qed.
Lemma nocheck_history h rs b ka va k v : vrep (zlen h + 1) (v_init vo) [] -> (2 * (zlen h + 1) + 4) * ksz < 2 ^ 64 -> bcaller_ok vo ksz cmp bs (bmap_init vo) h ->
  brun vo ksz cmp bs vok (bmap_init vo) h = Ret (rs, b) -> bmap_contains cmp bs b k = false ->
  exists m r ss b', mspec_run cmp fempty rs m /\ bmap_insert_nocheck vo ksz cmp ka va b k v = Ret (r, ss, b') /\
    (bholds vo cmp bs b' m /\ boths vok ka va = false /\ r = -1 \/
     bholds vo cmp bs b' (fset cmp m k v) /\ insert_denotes b' r k v).
Proof.
  intros Hv HL HC E Hn. destruct (brun_n h 1 _ _ (binit _ Hv HL) ltac:(lia) HC) as (rs' & b0 & m & E' & HH & HR). rewrite E in E'. injection E' as <- <-.
  destruct HH as (ks & vs & HB & Hm).
  assert (HN : Forall (fun x => cmp k x <> 0) ks).
  { pose proof (contains_ok vrep ksz cmp HO bs HBS _ b ks vs k HB) as HC'. rewrite Hn in HC'.
    destruct (find_ok vrep ksz cmp HO bs HBS _ b ks vs k HB) as [_ HN _|? ? ? ? ? ? _ _ _ _ _ EL]; [assumption|]. rewrite EL in HC'. exfalso. assert (false = true) by (apply HC'; discriminate). discriminate. }
  destruct (nocheck_ok vo vok vrep HV ksz Hksz cmp HO 0 ka va b ks vs k v ltac:(lia) HB HN) as (r & ss & b' & EI & [(-> & HB' & HF)|(p & q & vp & vq & -> & -> & El & -> & -> & HB')]);
    do 4 eexists; (split; [exact HR|]); (split; [exact EI|]).
  - left. split; [eapply (holds_bholds vo vok vrep HV ksz cmp HO bs HBS 0); do 2 eexists; eauto|]. split; [|reflexivity].
    unfold boths. destruct HF as [[_ ->]|[_ ->]]; [reflexivity|apply andb_false_r].
  - right. split.
    + eapply (holds_bholds vo vok vrep HV ksz cmp HO bs HBS 0). do 2 eexists; split; [exact HB'|]. intros k'. unfold fset. destruct (cmp k k' =? 0) eqn:Ec.
      * symmetry. apply lookup_at; auto; [apply (br_s _ _ _ _ _ _ _ HB')|]. apply (to_sym cmp HO). lia.
      * rewrite Hm. symmetry. apply lookup_not; auto; intros E'; apply (to_sym cmp HO) in E'; lia.
    + unfold insert_denotes. rewrite (brep_size _ _ _ _ _ _ _ HB'). zl. zpos. split; [lia|]. exists k. rewrite <- El at 1. split; [eapply getkey_ok; eauto|]. split; [now apply to_refl|]. eapply getval_ok; eauto.
Qed.
End BH.

Lemma trepn_init {V} isz n : 0 <= n -> (2 * n + 4) * isz < 2 ^ 64 -> trepn isz n (v_init (vops_tglist V isz)) [].
Proof. intros. split; [apply init_trep|]. change (zlen []) with 0. auto. Qed.
Lemma grepn_init {V} isz n : 0 <= n <= 2 ^ 32 -> (2 * n + 4) * isz < 2 ^ 64 -> grepn isz n (v_init (vops_tgilist V isz)) [].
Proof. intros. exists [], []. split; [apply ginit|]. change (zlen (A:=V) []) with 0. change (zlen (A:=Z) []) with 0. split; [constructor|]. repeat split; try lia. Qed.

(** a conforming search *)
Fixpoint lsearch {K} (f : K -> Z) (i : Z) (l : list K) : option Z :=
  match l with [] => None | x :: l => if f x =? 0 then Some i else lsearch f (i + 1) l end.
Lemma lsearch_ok {K} (f : K -> Z) l : forall i,
  match lsearch f i l with Some j => exists p x q, l = p ++ x :: q /\ i + zlen p = j /\ f x = 0 | None => Forall (fun x => f x <> 0) l end.
Proof.
  induction l as [|x l IH]; intros i; cbn [lsearch]; [constructor|]. destruct (f x =? 0) eqn:E.
  - exists [], x, l. split; [reflexivity|]. split; [change (zlen []) with 0; lia|lia].
  - specialize (IH (i + 1)). destruct (lsearch f (i + 1) l) as [j|].
    + destruct IH as (p & y & q & -> & <- & Hy). exists (x :: p), y, q. split; [reflexivity|]. split; [zl; lia|assumption].
    + constructor; [lia|assumption].
Qed.
Lemma lsearch_conforming {K} : bsearch_conforming (K := K) (fun f l => lsearch f 0 l).
Proof. intros f l _. apply (lsearch_ok f l 0). Qed.
Lemma sub_order : total_order Z.sub.
Proof. split; intros; lia. Qed.
