(** Property theorems about the destruction of tglist, tgilist, bmap and hbmap: C100. *)
From Coq Require Import Permutation.
From Verif Require Import Base M_tglist S_tglist D_tglist P_tglist P_tgilist M_bmap S_bmap D_bmap P_bmap P_hbmap M_fini S_fini P_fini.

(** C100: after any history on a list of pointers, tglist_free_values frees every stored pointer once, last
    first, and leaves an empty list that keeps its block. *)
Theorem c100_tglist_free_values :
  forall A (h : list (talloc A * lop A)), (2 * zlen h + 4) * 8 < 2 ^ 64 -> tcaller_ok 8 tglist_init h ->
    exists rs l xs l', trun 8 tglist_init h = Ret (rs, l) /\ lspec_run [] rs xs /\
      tglist_free_values 8 l = Ret (rev xs, l') /\ treads l' [] /\ tcapa_ok l' /\ tcapa l' = tcapa l.
Proof.
  intros A h HL HC. destruct (trun_ok 8 ltac:(lia) h _ _ (init_trep 8) ltac:(cbn; exact HL) HC) as (rs & l & xs & E & HT & HS & HM).
  destruct (free_values_ok 8 l xs HT eq_refl) as (l' & EF & HT' & EC). exists rs, l, xs, l'. split; [exact E|]. split; [exact HS|]. split; [exact EF|].
  split; [exact (trep_reads 8 _ _ HT')|]. split; [exact (trep_capa 8 _ _ HT')|exact EC].
Qed.
Print Assumptions c100_tglist_free_values.
(** on items of any other size it does nothing *)
Theorem c100_tglist_free_values_size :
  forall A isz (l : tgl A), isz <> 8 -> tglist_free_values isz l = Ret ([], l).
Proof. intros A isz l H. now apply free_values_no. Qed.
Print Assumptions c100_tglist_free_values_size.

(** tgilist_free_values frees the stored pointers and the deleted ones *)
Theorem c100_tgilist_free_values_partial :
  forall A im ksz (h : list ((talloc Z * talloc A) * lop A)), 1 <= ksz -> zlen h <= im -> (2 * zlen h + 4) * ksz < 2 ^ 64 -> (2 * zlen h + 4) * 8 < 2 ^ 64 ->
    gcaller_ok im ksz 8 tgilist_init h ->
    exists rs x xs gone fs x', grun im ksz 8 tgilist_init h = Ret (rs, x) /\ lspec_log [] rs xs gone /\
      tgilist_free_values 8 x = Ret (fs, x') /\ Permutation fs (xs ++ gone) /\
      (Forall (fun r => forall pos, snd (fst r) <> LDel pos) rs -> Permutation fs xs).
Proof.
  intros A im ksz h Hk H1 H2 H3 HC.
  destruct (grun_log im ksz 8 Hk ltac:(lia) h _ _ _ [] [] (ginit ksz 8)) as (rs & x & ks & vs & xs & D & E & HG & HP & HS & HD);
    try (change (zlen []) with 0); try assumption; try lia; [constructor|constructor|].
  destruct (free_values_ok 8 _ _ (g_val _ _ _ _ _ HG) eq_refl) as (l' & EF & _).
  assert (HR : Permutation (rev vs) (xs ++ D)) by (rewrite app_nil_r in HD; rewrite <- HD; symmetry; apply Permutation_rev).
  exists rs, x, xs, D, (rev vs). eexists. split; [exact E|]. split; [exact HS|]. split; [unfold tgilist_free_values; rewrite EF; reflexivity|]. split; [exact HR|].
  intros HN. rewrite (log_nodel _ _ _ _ HS HN), app_nil_r in HR. exact HR.
Qed.
Print Assumptions c100_tgilist_free_values_partial.
(** so a pointer that was taken out of the list is freed with it *)
Definition gm : talloc Z * talloc Z := (Some (fun _ => 0), Some (fun _ => 0)).
Theorem c100_tgilist_free_values_refuted :
  exists (h : list ((talloc Z * talloc Z) * lop Z)), gcaller_ok (2 ^ 32) 4 8 tgilist_init h /\
    exists rs x x', grun (2 ^ 32) 4 8 tgilist_init h = Ret (rs, x) /\ lspec_run [] rs [5] /\ tgilist_free_values 8 x = Ret ([7; 5], x').
Proof.
  exists [(gm, LAdd 5); (gm, LIns 7 0); (gm, LDel 0)]. split; [vm_compute; intuition discriminate|].
  eexists _, _, _. split; [vm_compute; reflexivity|]. split; [|vm_compute; reflexivity].
  eapply LrCons; [apply (LsAdd true [])|]. eapply LrCons; [apply (LsIns true [] [5])|]. eapply LrCons; [apply (LsDel true [] 7 [5])|]. constructor.
Qed.
Print Assumptions c100_tgilist_free_values_refuted.

(** bmap_fini after any history: every stored key (flag 1) and every stored value (flag 2) is freed once,
    then the arrays *)
Theorem c100_bmap_fini :
  forall K V cmp bs (h : list (talloc K * talloc V * mop K V)) f, let vo := vops_tglist V 8 in
    total_order cmp -> bsearch_conforming bs -> (2 * zlen h + 4) * 8 < 2 ^ 64 -> bcaller_ok vo 8 cmp bs (bmap_init vo) h ->
    exists rs b m kv, brun vo 8 cmp bs has_mem (bmap_init vo) h = Ret (rs, b) /\ mspec_run cmp fempty rs m /\ enumerates cmp m kv /\
      bmap_fini (vfree_tglist V 8) 8 [f] b =
        Ret (sel (wants_keys f) (map FreeKey (rev (map fst kv))) ++ sel (wants_vals f) (map FreeVal (rev (map snd kv))) ++ [FreeArr AKeys; FreeArr AValues]).
Proof.
  intros K V cmp bs h f vo HO HB H1 HC. pose proof (zlen_nonneg h) as Hz.
  destruct (brun_n vo has_mem (trepn 8) (vgood_tglist 8 ltac:(lia)) 8 ltac:(lia) cmp HO bs HB h 0 (bmap_init vo) fempty) as (rs & b & m & E & HH & HR); [|lia|exact HC|].
  - apply binit; [|lia]. rewrite Z.add_0_r. apply trepn_init; auto.
  - destruct (bfini_holds (trepn 8) (vfree_tglist V 8) (fun fs l => fs = rev l) (vf_tglist V) 8 eq_refl cmp HO [f] 0 b m HH) as (kv & fv & HE & -> & EF).
    exists rs, b, m, kv. split; [exact E|]. split; [exact HR|]. split; [exact HE|]. rewrite EF, events_sel. reflexivity.
Qed.
Print Assumptions c100_bmap_fini.
(** with BMAP_USE_TGILIST further values are freed with flag 2 *)
Theorem c100_bmap_fini_tgilist_partial :
  forall K V cmp bs (h : list (talloc K * (talloc Z * talloc V) * mop K V)) f, let vo := vops_tgilist V 8 in
    total_order cmp -> bsearch_conforming bs -> zlen h <= 2 ^ 32 -> bcaller_ok vo 8 cmp bs (bmap_init vo) h ->
    exists rs b m kv fv gone, brun vo 8 cmp bs both_mem (bmap_init vo) h = Ret (rs, b) /\ mspec_run cmp fempty rs m /\ enumerates cmp m kv /\
      Permutation fv (map snd kv ++ gone) /\
      bmap_fini (vfree_tgilist V 8) 8 [f] b =
        Ret (sel (wants_keys f) (map FreeKey (rev (map fst kv))) ++ sel (wants_vals f) (map FreeVal fv) ++ [FreeArr AKeys; FreeArr AIndex; FreeArr AValues]).
Proof.
  intros K V cmp bs h f vo HO HB H1 HC. pose proof (zlen_nonneg h) as Hz.
  destruct (brun_n vo both_mem (grepn 8) (vgood_tgilist 8 ltac:(lia)) 8 ltac:(lia) cmp HO bs HB h 0 (bmap_init vo) fempty) as (rs & b & m & E & HH & HR); [|lia|exact HC|].
  - apply binit; [|lia]. rewrite Z.add_0_r. apply grepn_init; lia.
  - destruct (bfini_holds (grepn 8) (vfree_tgilist V 8) (fun fs l => exists D, Permutation fs (l ++ D)) (vf_tgilist V) 8 eq_refl cmp HO [f] 0 b m HH) as (kv & fv & HE & [D HD] & EF).
    exists rs, b, m, kv, fv, D. split; [exact E|]. split; [exact HR|]. split; [exact HE|]. split; [exact HD|]. rewrite EF, events_sel. reflexivity.
Qed.
Print Assumptions c100_bmap_fini_tgilist_partial.
(** among them the value of an entry that bmap_delete removed *)
Theorem c100_bmap_fini_tgilist_refuted :
  forall K V cmp bs (h : list (talloc K * (talloc Z * talloc V) * mop K V)) rs b pos, let vo := vops_tgilist V 8 in
    total_order cmp -> bsearch_conforming bs -> zlen h <= 2 ^ 32 -> bcaller_ok vo 8 cmp bs (bmap_init vo) h ->
    brun vo 8 cmp bs both_mem (bmap_init vo) h = Ret (rs, b) -> 0 <= pos < bmap_getsize b ->
    exists v b' evs, bmap_getval vo b pos = Ret v /\ bmap_delete vo 8 b pos = Ret b' /\ bmap_fini (vfree_tgilist V 8) 8 [2] b' = Ret evs /\ In (FreeVal v) evs.
Proof.
  intros K V cmp bs h rs b pos vo HO HB H1 HC E HP. pose proof (zlen_nonneg h) as Hz.
  pose proof (vgood_tgilist (V := V) 8 ltac:(lia)) as HV.
  destruct (brun_n vo both_mem (grepn 8) HV 8 ltac:(lia) cmp HO bs HB h 0 (bmap_init vo) fempty) as (rs' & b0 & m & E' & (ks & vs & HR & _) & _); [|lia|exact HC|].
  - apply binit; [|lia]. rewrite Z.add_0_r. apply grepn_init; lia.
  - rewrite E in E'. injection E' as <- <-. rewrite (brep_size _ _ _ _ _ _ _ HR) in HP. destruct (zsplit_mid ks pos HP) as (p & x & q & -> & <-).
    destruct (vsplit _ _ _ _ _ (br_e _ _ _ _ _ _ _ HR) eq_refl) as (vp & v & vq & -> & EL).
    exists v. pose proof (br_v _ _ _ _ _ _ _ HR) as (kk & st & HG & HK & _).
    destruct (bdelete_ok vo both_mem (grepn 8) HV 8 ltac:(lia) cmp 0 b _ _ _ _ _ _ HR (eq_sym EL)) as (b' & ED & HR').
    assert (EV : gval (bvals b') = gval (bvals b)).
    { revert ED. unfold bmap_delete, vo. cbn [vops_tgilist v_delete]. unfold tgilist_delete. rewrite EL. destruct (tglist_delete 8 (bkeys b) (zlen p)) as [[r1 k1]| |]; cbn [bind]; try discriminate.
      destruct (tglist_delete 4 (gidx (bvals b)) (zlen p)) as [[r2 k2]| |]; cbn [bind]; try discriminate. intros H. injection H as <-. reflexivity. }
    destruct (free_values_ok 8 _ _ (g_val _ _ _ _ _ HG) eq_refl) as (l' & EF & _).
    exists b'. eexists. split; [rewrite <- EL; eapply getval_ok; eauto|]. split; [rewrite <- EL; exact ED|].
    split; [unfold bmap_fini; cbn [flag Z.land Pos.land Z.eqb negb bind f_values vfree_tgilist]; unfold tgilist_free_values; rewrite EV, EF; cbn [bind]; reflexivity|].
    apply in_or_app. right. apply in_or_app. left. apply in_map. apply -> in_rev.
    destruct (pick_perm st kk _ (g_rng _ _ _ _ _ HG) (g_dup _ _ _ _ _ HG) HK) as (D & HD). eapply Permutation_in; [symmetry; exact HD|]. apply in_or_app. left. apply in_elt.
Qed.
Print Assumptions c100_bmap_fini_tgilist_refuted.
(** the flags are used without parentheses: written 2|0 they free the keys *)
Theorem c100_bmap_fini_flags_refuted :
  exists (h : list (talloc Z * talloc Z * mop Z Z)) rs b, brun (vops_tglist Z 8) 8 Z.sub (fun f l => lsearch f 0 l) has_mem (bmap_init (vops_tglist Z 8)) h = Ret (rs, b) /\
    bmap_fini (vfree_tglist Z 8) 8 [Z.lor 2 0] b = Ret [FreeVal 70; FreeArr AKeys; FreeArr AValues] /\
    bmap_fini (vfree_tglist Z 8) 8 [2; 0] b = Ret [FreeKey 7; FreeVal 70; FreeArr AKeys; FreeArr AValues].
Proof.
  exists [(Some (fun _ => 0), Some (fun _ => 0), MInsert 7 70)]. eexists _, _. split; [vm_compute; reflexivity|]. split; vm_compute; reflexivity.
Qed.
Print Assumptions c100_bmap_fini_flags_refuted.

(** hbmap_fini: the same, bucket by bucket; every entry of the map is in one bucket *)
Theorem c100_hbmap_fini :
  forall K V cmp bs hash nb (l : list (talloc K * talloc V * mop K V)) f, let vo := vops_tglist V 8 in
    total_order cmp -> bsearch_conforming bs -> hash_ok cmp hash -> 1 <= nb < 2 ^ 32 -> (2 * (zlen l + 1) + 4) * 8 < 2 ^ 64 ->
    hcaller_ok vo 8 cmp bs hash (hbmap_init vo nb) l ->
    exists rs h m kvs, hrun vo 8 cmp bs has_mem hash (hbmap_init vo nb) l = Ret (rs, h) /\ mspec_run cmp fempty rs m /\ enumerates cmp m (concat kvs) /\ zlen kvs = zlen h /\
      hbmap_fini (vfree_tglist V 8) 8 [f] h =
        Ret (concat (map (fun kv => sel (wants_keys f) (map FreeKey (rev (map fst kv))) ++ sel (wants_vals f) (map FreeVal (rev (map snd kv))) ++ [FreeArr AKeys; FreeArr AValues]) kvs)).
Proof.
  intros K V cmp bs hash nb l f vo HO HB HH Hnb H1 HC. pose proof (zlen_nonneg l) as Hz.
  destruct (hreach vo has_mem (trepn 8) (vgood_tglist 8 ltac:(lia)) 8 ltac:(lia) cmp HO bs HB hash HH nb Hnb l) as (rs & h & m & E & HR & HI & _); auto; [apply trepn_init; lia|].
  exists rs, h, m.
  destruct (hfini_ok (trepn 8) (vfree_tglist V 8) (fun fs l => fs = rev l) (vf_tglist V) 8 eq_refl cmp HO hash HH [f] 1 (zlen h) m h 0) as (ps & L & F1 & EF & F2 & F3 & F4); [exact (hi_b _ _ _ _ _ _ _ HI)|].
  exists (map fst ps). split; [exact E|]. split; [exact HR|]. split; [split; [|split]|].
  - eapply Forall_impl; [|exact F2]. cbn. tauto.
  - exact F3.
  - intros k Hk. apply F4; [|exact Hk]. pose proof (hi_nb _ _ _ _ _ _ _ HI). pose proof (Z.mod_pos_bound (hash k) (zlen h) ltac:(lia)). lia.
  - split; [unfold zlen in *; now rewrite map_length|]. rewrite EF. do 2 f_equal. rewrite map_map. clear -F1. induction F1 as [|p ps H1 F IH]; [reflexivity|]. cbn [map]. rewrite IH, events_sel, H1. reflexivity.
Qed.
Print Assumptions c100_hbmap_fini.
Example c100_example :
  match trun 8 tglist_init [(Some (fun _ => 0), LAdd 5); (Some (fun _ => 0), LAdd 6); (Some (fun _ => 0), LIns 7 0); (None, LDel 1)] with
  | Ret (_, l) => match tglist_free_values 8 l with Ret (fs, l') => fs = [6; 7] /\ tcnt l' = 0 | _ => False end
  | _ => False
  end /\
  match hrun (vops_tglist Z 8) 8 Z.sub (fun f l => lsearch f 0 l) has_mem (fun k => k mod 3) (hbmap_init (vops_tglist Z 8) 2)
          (map (fun o => (Some (fun _ => 0), Some (fun _ => 0), o)) [MInsert 7 70; MInsert 3 30; MInsert 9 90; MInsert 2 20; MInsert 3 31]) with
  | Ret (_, h) => hbmap_fini (vfree_tglist Z 8) 8 [1] h =
      Ret [FreeKey 9; FreeKey 3; FreeKey 2; FreeArr AKeys; FreeArr AValues; FreeKey 7; FreeArr AKeys; FreeArr AValues]
  | _ => False
  end.
Proof. vm_compute. auto. Qed.
