(** Property C09, exactly: where tgilist keeps its items. *)
From Verif Require Import Base Cstr M_tglist S_tglist D_tglist P_tglist P_tgilist S_tgistore.

Section P.
Context {A : Type}.
Variables im ksz isz : Z.
Hypothesis Hk : 1 <= ksz.
Hypothesis Hi : 1 <= isz.
Notation rep := (grep ksz isz).
Lemma step_store al (x : tgi A) ks vs o : rep x ks vs -> zlen vs < im ->
  (2 * zlen ks + 4) * ksz < 2 ^ 64 -> (2 * zlen vs + 4) * isz < 2 ^ 64 -> lvalid (tgilist_getsize x) o ->
  exists r x' ks' vs', gexec im ksz isz al x o = Ret (r, x') /\ rep x' ks' vs' /\ sspec (both_mem al) (ks, vs) o r (ks', vs') /\
    zlen vs' <= zlen vs + 1 /\ zlen ks' <= zlen ks + 1.
Proof.
  intros HG HM HLk HLv HV. destruct al as [ai av]. pose proof HG as [Gi Gv Gr Gd]. unfold tgilist_getsize in HV. rewrite (r_cnt _ _ _ Gi) in HV.
  unfold both_mem. cbn [fst snd]. zpos.
  destruct o as [y|y pos|y pos|pos|pos]; cbn [gexec lvalid fst snd] in *.
  - unfold tgilist_add. rewrite (r_cnt _ _ _ Gv). rewrite Z.mod_small by lia.
    destruct (add_ok ksz Hk ai (gidx x) ks (zlen vs) Gi HLk) as [r [i' [-> [[-> [-> Ha]]|[-> Gi']]]]]; cbn [bind Z.eqb].
    + exists (LInt 0), x, ks, vs. destruct x as [xi xv]. cbn [gidx gval]. split; [reflexivity|]. split; [assumption|]. split; [apply SsAddOom; now rewrite Ha|]. lia.
    + destruct (add_ok isz Hi av (gval x) vs y Gv HLv) as [r [v' [-> [[-> [-> Ha]]|[-> Gv']]]]]; cbn [bind Z.eqb negb].
      * pose proof (trep_u64 ksz Hk _ _ Gi') as [_ Hu]. rewrite (r_cnt _ _ _ Gi'). zl. rewrite u64_id by lia.
        destruct (delete_ok ksz Hk i' ks (zlen vs) [] (zlen ks + (1 + 0) - 1)) as [i2 [-> Gi2]]; [exact Gi'|lia|]. cbn [bind]. rewrite app_nil_r in Gi2.
        exists (LInt 0), (mkTgi i2 (gval x)), ks, vs. split; [reflexivity|]. split; [split; auto|]. split; [apply SsAddOom; rewrite Ha; apply andb_false_r|]. lia.
      * exists (LInt 1), (mkTgi i' v'), (ks ++ [zlen vs]), (vs ++ [y]). split; [reflexivity|]. split.
        { split; cbn [gidx gval]; auto.
          - apply Forall_app. split; [now apply rng_app|]. constructor; [|constructor]. zl. lia.
          - apply NoDup_app_snoc; [assumption|now apply fresh_notin]. }
        split; [constructor|]. zl. lia.
  - unfold tgilist_insert.
    destruct (add_ok isz Hi av (gval x) vs y Gv HLv) as [r [v' [-> [[-> [-> Ha]]|[-> Gv']]]]]; cbn [bind Z.eqb].
    + exists (LInt 0), x, ks, vs. destruct x as [xi xv]. cbn [gidx gval]. split; [reflexivity|]. split; [assumption|]. split; [apply SsInsOom; rewrite Ha; apply andb_false_r|]. lia.
    + pose proof (trep_u64 isz Hi _ _ Gv') as [_ Hu]. rewrite (r_cnt _ _ _ Gv'). zl. rewrite u64_id by lia. rewrite Z.mod_small by lia.
      replace (zlen vs + (1 + 0) - 1) with (zlen vs) by lia.
      destruct (zsplit pos ks) as [kp [kq [-> Hp]]]; [lia|].
      destruct (insert_ok ksz Hk ai (gidx x) kp kq (zlen vs) pos Gi HLk ltac:(lia)) as [r [i' [-> [[-> [-> Ha]]|[-> Gi']]]]]; cbn [bind Z.eqb negb].
      * exists (LInt 0), (mkTgi (gidx x) (mkTg (zlen vs) (tcapa v') (tmem v'))), (kp ++ kq), vs. split; [reflexivity|].
        assert (GV2 : trep isz (mkTg (zlen vs) (tcapa v') (tmem v')) vs).
        { pose proof (trep_shrink isz Hi v' vs y Gv') as HS. rewrite (r_cnt _ _ _ Gv') in HS. zl. rewrite u64_id in HS by lia. now replace (zlen vs + (1 + 0) - 1) with (zlen vs) in HS by lia. }
        split; [split; auto|]. split; [apply SsInsOom; now rewrite Ha|]. lia.
      * exists (LInt 1), (mkTgi i' v'), (kp ++ zlen vs :: kq), (vs ++ [y]). split; [reflexivity|].
        apply Forall_app in Gr as [Gr1 Gr2]. split.
        { split; cbn [gidx gval]; auto.
          - apply Forall_app. split; [now apply rng_app|]. constructor; [zl; lia|now apply rng_app].
          - apply NoDup_insert; [assumption|]. rewrite in_app_iff. intros [H|H]; eapply fresh_notin; try exact H; assumption. }
        split; [rewrite <- Hp; constructor|]. zl. lia.
  - unfold tgilist_set. destruct (zsplit_mid ks pos HV) as [kp [s [kq [-> Hp]]]]. subst pos.
    rewrite (get_ok ksz (gidx x) kp s kq Gi). cbn [bind].
    assert (Hs : 0 <= s < zlen vs) by (apply Forall_app in Gr as [_ Gr]; apply Forall_cons_iff in Gr; tauto).
    destruct (zsplit_mid vs s Hs) as [vp [z [vq [-> Hvp]]]].
    destruct (set_ok isz (gval x) vp z vq y Gv) as [v' [E Gv']]. rewrite Hvp in E. rewrite E. cbn [bind].
    exists (LInt 1), (mkTgi (gidx x) v'), (kp ++ s :: kq), (vp ++ y :: vq). split; [reflexivity|]. split.
    { split; cbn [gidx gval]; auto. eapply Forall_impl; [|exact Gr]. cbn. intros a. zl. lia. }
    split; [rewrite <- Hvp; constructor|]. zl. lia.
  - unfold tgilist_delete. destruct (zsplit_mid ks pos HV) as [kp [s [kq [-> Hp]]]].
    destruct (delete_ok ksz Hk (gidx x) kp s kq pos Gi ltac:(lia)) as [i' [-> Gi']]. cbn [bind].
    exists (LInt 1), (mkTgi i' (gval x)), (kp ++ kq), vs. split; [reflexivity|].
    apply Forall_app in Gr as [Gr1 Gr2]. apply Forall_cons_iff in Gr2 as [_ Gr2]. split.
    { split; cbn [gidx gval]; auto; [apply Forall_app; auto|]. apply NoDup_remove in Gd. tauto. }
    split; [rewrite <- Hp; constructor|]. zl. lia.
  - unfold tgilist_get. destruct (zsplit_mid ks pos HV) as [kp [s [kq [-> Hp]]]]. subst pos.
    rewrite (get_ok ksz (gidx x) kp s kq Gi). cbn [bind].
    assert (Hs : 0 <= s < zlen vs) by (apply Forall_app in Gr as [_ Gr]; apply Forall_cons_iff in Gr; tauto).
    destruct (zsplit_mid vs s Hs) as [vp [z [vq [-> Hvp]]]]. rewrite <- Hvp in *. rewrite (get_ok isz (gval x) vp z vq Gv). cbn [bind].
    exists (LItem z), x, (kp ++ zlen vp :: kq), (vp ++ z :: vq). split; [reflexivity|]. split; [assumption|]. split; [constructor|]. zl. lia.
Qed.
Lemma run_store h : forall (x : tgi A) ks vs, rep x ks vs -> zlen vs + zlen h <= im ->
  (2 * (zlen ks + zlen h) + 4) * ksz < 2 ^ 64 -> (2 * (zlen vs + zlen h) + 4) * isz < 2 ^ 64 -> gcaller_ok im ksz isz x h ->
  exists rs x' ks' vs', grun im ksz isz x h = Ret (rs, x') /\ rep x' ks' vs' /\ sspec_run (ks, vs) rs (ks', vs') /\
    map fst rs = map (fun p => (both_mem (fst p), snd p)) h.
Proof.
  induction h as [|[al o] h IH]; intros x ks vs HG HM HLk HLv HC; cbn [grun].
  - exists [], x, ks, vs. repeat split; try assumption; try apply HG; constructor.
  - cbn [gcaller_ok] in HC. destruct HC as [HV HC]. zl. zpos.
    destruct (step_store al x ks vs o HG ltac:(lia) ltac:(nia) ltac:(nia) HV) as (r & x' & ks' & vs' & E & HG' & HS & H1 & H2).
    rewrite E in *. cbn [bind].
    destruct (IH x' ks' vs' HG' ltac:(lia) ltac:(nia) ltac:(nia) HC) as (rs & x2 & ks2 & vs2 & -> & HG2 & HS2 & HM2). cbn [bind].
    do 4 eexists. split; [reflexivity|]. split; [eassumption|]. split; [econstructor; eauto|]. cbn [map fst snd]. now rewrite HM2.
Qed.
Lemma store_len (s s' : list Z * list A) rs : sspec_run s rs s' -> zlen (snd s') = zlen (snd s) + added rs.
Proof.
  induction 1 as [s|s b o r s' h s'' X _ IH]; [cbn [added filter]; change (zlen (@nil (bool * lop A * lresp A))) with 0; unfold added; cbn [filter]; change (zlen (@nil (bool * lop A * lresp A))) with 0; lia|].
  rewrite IH. unfold added. cbn [filter]. destruct X; cbn [Z.eqb Pos.eqb snd]; zl; lia.
Qed.
End P.

(** after any history the list is what the two-level specification says: the places in the index
    list, the items in the store, including those that were deleted *)
Theorem c09_store_exact : forall A im ksz isz, 1 <= ksz -> 1 <= isz -> forall h : list ((talloc Z * talloc A) * lop A),
    zlen h <= im -> (2 * zlen h + 4) * ksz < 2 ^ 64 -> (2 * zlen h + 4) * isz < 2 ^ 64 -> gcaller_ok im ksz isz tgilist_init h ->
    exists rs x ks vs, grun im ksz isz tgilist_init h = Ret (rs, x) /\ sspec_run ([], []) rs (ks, vs) /\
      treads (gidx x) ks /\ treads (gval x) vs /\ map fst rs = map (fun p => (both_mem (fst p), snd p)) h.
Proof.
  intros A im ksz isz Hk Hi h H1 H2 H3 HC.
  destruct (run_store im ksz isz Hk Hi h _ _ _ (ginit ksz isz)) as (rs & x & ks & vs & E & HG & HS & HM); try (change (zlen (@nil Z)) with 0); try (change (zlen (@nil A)) with 0); try assumption; try lia.
  exists rs, x, ks, vs. split; [assumption|]. split; [assumption|].
  split; [split; [exact (r_cnt _ _ _ (g_idx _ _ _ _ _ HG))|intros i d I; exact (get_znth _ _ _ i d (g_idx _ _ _ _ _ HG) I)]|].
  split; [split; [exact (r_cnt _ _ _ (g_val _ _ _ _ _ HG))|intros i d I; exact (get_znth _ _ _ i d (g_val _ _ _ _ _ HG) I)]|assumption].
Qed.
Print Assumptions c09_store_exact.
(** the store has one item for each addition that succeeded; failed ones leave nothing behind *)
Theorem c09_store_size : forall A im ksz isz, 1 <= ksz -> 1 <= isz -> forall (h : list ((talloc Z * talloc A) * lop A)) rs x,
    zlen h <= im -> (2 * zlen h + 4) * ksz < 2 ^ 64 -> (2 * zlen h + 4) * isz < 2 ^ 64 -> gcaller_ok im ksz isz tgilist_init h ->
    grun im ksz isz tgilist_init h = Ret (rs, x) -> tcnt (gval x) = added rs.
Proof.
  intros A im ksz isz Hk Hi h rs x H1 H2 H3 HC E. destruct (c09_store_exact A im ksz isz Hk Hi h H1 H2 H3 HC) as (rs' & x' & ks & vs & E' & HS & _ & [C _] & _).
  rewrite E in E'. injection E' as <- <-. rewrite C. exact (store_len _ _ _ HS).
Qed.
Print Assumptions c09_store_size.
(** 5, 7 before it, 1 and 2 behind; 6 in front fails without memory for the index; 5 deleted; 8 added *)
Example c09_store_ex : let J : talloc Z := Some (fun i => 99) in
  match grun (2 ^ 32) 4 8 tgilist_init [((J, J), LAdd 5); ((J, J), LIns 7 0); ((J, J), LAdd 1); ((J, J), LAdd 2); ((None, J), LIns 6 0); ((J, J), LDel 1); ((J, J), LAdd 8)] with
  | Ret (rs, x) => (ztake (tcnt (gidx x)) (tmem (gidx x)), ztake (tcnt (gval x)) (tmem (gval x)), added rs)
  | _ => ([], [], 0)
  end = ([1; 2; 3; 4], [5; 7; 1; 2; 8], 5).
Proof. vm_compute. reflexivity. Qed.
