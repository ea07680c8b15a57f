(** The byte level tgilist behaves as a list. *)
From Verif Require Import Base Bits M_tglist S_tglist D_tglist P_tglist M_tgbytes D_tgbytes P_tgbytes M_endianbe T_endianbe M_tgibytes D_tgibytes.

(** * one block *)
Definition brep (isz : Z) (b : btg) (xs : list (list Z)) : Prop := exists l, sim isz l b /\ trep isz l xs.
Lemma sim_fun isz l b b' : sim isz l b -> sim isz l b' -> b = b'.
Proof. intros (A & B & C & _) (A' & B' & C' & _). destruct b, b'. cbn in *. now subst. Qed.
Lemma brep_step isz al b xs o : 1 <= isz -> brep isz b xs -> (2 * zlen xs + 4) * isz < 2 ^ 64 -> item_ok isz o -> lvalid (zlen xs) o ->
  exists r b' xs', bexec isz al b o = Ret (r, b') /\ brep isz b' xs' /\ lspec (bhas_mem al) xs o r xs' /\ (r = LInt 0 -> b' = b).
Proof.
  intros Hi (l & S & T) L IO V. rewrite <- (r_cnt _ _ _ T) in V. destruct (texec_ok isz Hi (slots isz al) l xs o T L V) as (r & l' & xs' & EX & T' & SP & Z0).
  destruct (sim_exec isz Hi al l b xs o r l' S T L IO EX) as (b' & EB & S'). exists r, b', xs'. split; [exact EB|]. split; [now exists l'|]. split; [rewrite <- (has_slots isz); exact SP|]. intros E. specialize (Z0 E). subst l'. eapply sim_fun; eauto.
Qed.
Lemma brep_cnt isz b xs : brep isz b xs -> bcnt b = zlen xs.
Proof. intros (l & (C & _) & T). rewrite C. apply T. Qed.
Lemma brep_sized isz b xs : brep isz b xs -> sized isz xs.
Proof. intros (l & (_ & _ & _ & S) & T). destruct (r_mem _ _ _ T) as [j E]. rewrite E in S. now apply Forall_app in S. Qed.
Lemma brep_mem isz b xs : brep isz b xs -> exists junk, bmem b = concat xs ++ junk.
Proof. intros (l & (_ & _ & M & _) & T). destruct (r_mem _ _ _ T) as [j E]. exists (concat j). now rewrite M, E, concat_app. Qed.
Lemma brep_get isz b xs i : 1 <= isz -> brep isz b xs -> 0 <= i < zlen xs -> b_get isz b i = Ret (znth [] xs i).
Proof. intros Hi (l & S & T). apply (sim_breads isz Hi l b xs S T). Qed.
Lemma brep_set isz b xs x k : 1 <= isz -> brep isz b xs -> (2 * zlen xs + 4) * isz < 2 ^ 64 -> 0 <= k < zlen xs -> zlen x = isz ->
  exists b', b_set isz b x k = Ret (1, b') /\ brep isz b' (ztake k xs ++ x :: zdrop (k + 1) xs).
Proof.
  intros Hi R L K X. destruct (brep_step isz None b xs (LSet x k) Hi R L X K) as (r & b' & xs' & E & R' & SP & _). cbn [bexec] in E. destruct (b_set isz b x k) as [[r1 b1]| |] eqn:EB; cbn [bind] in E; try discriminate. injection E as <- <-.
  clear X. inversion SP; subst. exists b1. split; [reflexivity|]. match goal with H : brep isz b1 ?y |- brep isz b1 ?z => replace z with y; [exact H|] end. rewrite ztake_app_exact. f_equal. f_equal. rewrite zdrop_app2 by lia. replace (zlen p + 1 - zlen p) with 1 by lia. reflexivity.
Qed.
(** the step before the last count goes back to the previous list *)
Lemma brep_back isz b xs x c : brep isz b (xs ++ [x]) -> c = zlen xs -> brep isz (mkB c (bcapa b) (bmem b)) xs.
Proof.
  intros (l & S & T) ->. exists (mkTg (zlen xs) (tcapa l) (tmem l)). split; [now apply sim_cnt|]. destruct T as [[j E] Hc Hk Hs Hp]. constructor; cbn [tmem tcnt tcapa]; auto. exists (x :: j). now rewrite E, <- app_assoc.
Qed.

Section G.
Variables (be : bool) (n : nat) (isz : Z).
Hypotheses (Hn : (1 <= n)%nat) (Hisz : 1 <= isz).
Notation ksz := (Z.of_nat n).
Notation enc := (obj be n).
Definition vals (vs : list (list Z)) (ks : list Z) : list (list Z) := map (znth [] vs) ks.
Record grep (x : bgi) (ks : list Z) (vs : list (list Z)) : Prop := mkGrep {
  g_i : brep ksz (bidx x) (map enc ks);
  g_v : brep isz (bval x) vs;
  g_nd : NoDup ks;
  g_rng : Forall (fun k => 0 <= k < zlen vs) ks;
  g_len : zlen ks <= zlen vs }.

Lemma enc_len k : zlen (enc k) = ksz.
Proof using. clear Hn Hisz. unfold zlen. now rewrite obj_len. Qed.
Lemma grep_key x ks vs pos : grep x ks vs -> zlen vs <= 256 ^ ksz -> 0 <= pos < zlen ks ->
  b_get ksz (bidx x) pos = Ret (enc (znth 0 ks pos)) /\ load be (enc (znth 0 ks pos)) = znth 0 ks pos /\ 0 <= znth 0 ks pos < zlen vs.
Proof using Hn.
  intros G L P. rewrite (brep_get ksz _ _ pos ltac:(lia) (g_i _ _ _ G)) by (now rewrite zlen_map). rewrite (znth_map enc 0 []) by exact P.
  assert (R : 0 <= znth 0 ks pos < zlen vs). { pose proof (g_rng _ _ _ G) as F. rewrite Forall_forall in F. apply F. unfold znth. apply nth_In. unfold zlen in P. lia. }
  split; [reflexivity|]. split; [|exact R]. rewrite load_obj. apply Z.mod_small. lia.
Qed.
Lemma grep_get x ks vs pos : grep x ks vs -> zlen vs <= 256 ^ ksz -> 0 <= pos < zlen ks -> bgi_get be n isz x pos = Ret (znth [] (vals vs ks) pos).
Proof using Hn Hisz.
  intros G L P. destruct (grep_key x ks vs pos G L P) as (E & D & R). unfold bgi_get. rewrite E. cbn [bind]. rewrite D, (brep_get isz _ _ _ Hisz (g_v _ _ _ G) R). unfold vals. now rewrite (znth_map (znth [] vs) 0 []).
Qed.
Lemma vals_app vs w ks : Forall (fun k => 0 <= k < zlen vs) ks -> vals (vs ++ w) ks = vals vs ks.
Proof using. clear Hn Hisz. intros F. unfold vals. apply map_ext_in. intros k I. rewrite Forall_forall in F. specialize (F k I). now apply znth_app1. Qed.
Lemma vals_new (vs : list (list Z)) w : znth [] (vs ++ [w]) (zlen vs) = w.
Proof using. clear Hn Hisz. rewrite znth_app2 by lia. now rewrite Z.sub_diag. Qed.
Lemma vals_len vs ks : zlen (vals vs ks) = zlen ks.
Proof using. clear Hn Hisz. apply zlen_map. Qed.
Lemma vals_set vs k y ks : 0 <= k < zlen vs -> Forall (fun k => 0 <= k < zlen vs) ks -> ~ In k ks -> vals (ztake k vs ++ y :: zdrop (k + 1) vs) ks = vals vs ks.
Proof using. clear Hn Hisz.
  intros K F NI. unfold vals. apply map_ext_in. intros j I. rewrite Forall_forall in F. specialize (F j I). assert (j <> k) by (intros ->; auto).
  destruct (Z.ltb_spec j k).
  - rewrite znth_app1 by (rewrite zlen_ztake; lia). rewrite <- (ztake_zdrop k vs) at 2. rewrite znth_app1; [reflexivity|rewrite zlen_ztake; lia].
  - rewrite (zsplit1 [] k vs K) at 3. rewrite !znth_app2 by (rewrite zlen_ztake; lia). rewrite zlen_ztake by lia. change (y :: zdrop (k + 1) vs) with ([y] ++ zdrop (k + 1) vs). change (znth [] vs k :: zdrop (k + 1) vs) with ([znth [] vs k] ++ zdrop (k + 1) vs). rewrite !znth_app2 by (zl; cbn; lia). reflexivity.
Qed.
Lemma prefix_keep b b' xs ys : brep isz b xs -> brep isz b' (xs ++ ys) -> ztake (bcnt b * isz) (bmem b') = ztake (bcnt b * isz) (bmem b) /\ bcnt b <= bcnt b'.
Proof using. clear Hn Hisz.
  intros R R'. rewrite (brep_cnt _ _ _ R), (brep_cnt _ _ _ R'). destruct (brep_mem _ _ _ R) as [j ->], (brep_mem _ _ _ R') as [j' ->]. rewrite <- (concat_len isz xs (brep_sized _ _ _ R)). rewrite concat_app, <- app_assoc, !ztake_app_exact. split; [reflexivity|]. zl. zpos. lia.
Qed.

Ltac stp H X := match type of H with
  | bind ?e _ = _ => destruct e as [[? ?]| |] eqn:X; cbn [bind] in H; try discriminate
  end.
Lemma add_step sz al b xs x : 1 <= sz -> brep sz b xs -> (2 * zlen xs + 4) * sz < 2 ^ 64 -> zlen x = sz ->
  (bhas_mem al = false /\ b_add sz al b x = Ret (0, b)) \/ exists b', b_add sz al b x = Ret (1, b') /\ brep sz b' (xs ++ [x]).
Proof using. clear Hn Hisz.
  intros Hi R L X. destruct (brep_step sz al b xs (LAdd x) Hi R L X I) as (r & b' & xs' & E & R' & SP & Z0). cbn [bexec] in E. destruct (b_add sz al b x) as [[r1 b1]| |]; cbn [bind] in E; try discriminate. injection E as <- <-.
  clear X. inversion SP; subst; [right; now exists b1|left]. rewrite (Z0 eq_refl). auto.
Qed.
Lemma ins_step sz al b xs x pos : 1 <= sz -> brep sz b xs -> (2 * zlen xs + 4) * sz < 2 ^ 64 -> zlen x = sz -> 0 <= pos <= zlen xs ->
  (bhas_mem al = false /\ b_insert sz al b x pos = Ret (0, b)) \/ exists b', b_insert sz al b x pos = Ret (1, b') /\ brep sz b' (ztake pos xs ++ x :: zdrop pos xs).
Proof using. clear Hn Hisz.
  intros Hi R L X P. destruct (brep_step sz al b xs (LIns x pos) Hi R L X P) as (r & b' & xs' & E & R' & SP & Z0). cbn [bexec] in E. destruct (b_insert sz al b x pos) as [[r1 b1]| |]; cbn [bind] in E; try discriminate. injection E as <- <-.
  clear X. inversion SP; subst; [right; exists b1|left]. - now rewrite ztake_app_exact, zdrop_app_exact. - rewrite (Z0 eq_refl). auto.
Qed.
Lemma del_step sz b xs pos : 1 <= sz -> brep sz b xs -> (2 * zlen xs + 4) * sz < 2 ^ 64 -> 0 <= pos < zlen xs ->
  exists b', b_delete sz b pos = Ret (1, b') /\ brep sz b' (ztake pos xs ++ zdrop (pos + 1) xs).
Proof using. clear Hn Hisz.
  intros Hi R L P. destruct (brep_step sz None b xs (LDel pos) Hi R L I P) as (r & b' & xs' & E & R' & SP & Z0). cbn [bexec] in E. destruct (b_delete sz b pos) as [[r1 b1]| |]; cbn [bind] in E; try discriminate. injection E as <- <-.
  inversion SP; subst. exists b1. split; [reflexivity|]. rewrite ztake_app_exact, zdrop_app2 by lia. replace (zlen p + 1 - zlen p) with 1 by lia. exact R'.
Qed.
Lemma map_ztake {A B} (f : A -> B) k l : map f (ztake k l) = ztake k (map f l).
Proof using. clear Hn Hisz. unfold ztake. symmetry. apply firstn_map. Qed.
Lemma map_zdrop {A B} (f : A -> B) k l : map f (zdrop k l) = zdrop k (map f l).
Proof using. clear Hn Hisz. unfold zdrop. symmetry. apply skipn_map. Qed.
Lemma fresh_nin (vs : list (list Z)) ks : Forall (fun k => 0 <= k < zlen vs) ks -> ~ In (zlen vs) ks.
Proof using. clear Hn Hisz. intros F I. rewrite Forall_forall in F. specialize (F _ I). cbn beta in F. lia. Qed.
Lemma rng_up vs (w : list Z) ks : Forall (fun k => 0 <= k < zlen vs) ks -> Forall (fun k => 0 <= k < zlen (vs ++ [w])) ks.
Proof using. clear Hn Hisz. intros F. eapply Forall_impl; [|exact F]. intros k K. cbn beta in *. zl. cbn. lia. Qed.

Lemma gstep al x ks vs o : grep x ks vs -> zlen vs < 256 ^ ksz -> (2 * zlen vs + 6) * isz < 2 ^ 64 -> (2 * zlen vs + 6) * ksz < 2 ^ 64 -> item_ok isz o -> lvalid (zlen ks) o ->
  exists r x' ks' vs', bgexec be n isz al x o = Ret (r, x') /\ grep x' ks' vs' /\ lspec (bboth al) (vals vs ks) o r (vals vs' ks') /\ zlen vs' <= zlen vs + 1 /\ bgkept be n isz x x' o.
Proof using Hn Hisz.
  intros G L Li Lk IO V. pose proof (g_i _ _ _ G) as GI. pose proof (g_v _ _ _ G) as GV. pose proof (g_rng _ _ _ G) as GR. pose proof (g_nd _ _ _ G) as ND. pose proof (g_len _ _ _ G) as GL. pose proof (zlen_nonneg ks). pose proof (zlen_nonneg vs).
  assert (Lk' : (2 * zlen (map enc ks) + 4) * ksz < 2 ^ 64) by (rewrite zlen_map; nia).
  assert (Li' : (2 * zlen vs + 4) * isz < 2 ^ 64) by nia.
  assert (BC : zlen vs < 2 ^ 64 - 1) by nia.
  assert (KP : forall i' b' ys, brep isz b' (vs ++ ys) -> ztake (bcnt (bval x) * isz) (bmem (bval (mkBG i' b'))) = ztake (bcnt (bval x) * isz) (bmem (bval x)) /\ bcnt (bval x) <= bcnt (bval (mkBG i' b'))) by (intros; eapply prefix_keep; eauto).
  destruct o as [y|y pos|y pos|pos|pos]; cbn [bgexec item_ok lvalid bgkept] in *.
  - unfold bgi_add. replace (enc (bcnt (bval x))) with (enc (zlen vs)) by (now rewrite (brep_cnt _ _ _ GV)). destruct (add_step ksz (fst al) _ _ (enc (zlen vs)) ltac:(lia) GI Lk' (enc_len _)) as [[M ->]|(i' & -> & RI)]; cbn [bind Z.eqb].
    + destruct x as [bi bv]. do 4 eexists. split; [reflexivity|]. split; [exact G|]. split; [apply LsAddOom; unfold bboth; now rewrite M|]. split; [lia|]. split; [reflexivity|apply Z.le_refl].
    + destruct (add_step isz (snd al) _ _ y Hisz GV Li' IO) as [[M ->]|(v' & -> & RV)]; cbn [bind Z.eqb negb].
      * change [enc (zlen vs)] with (map enc [zlen vs]) in RI. rewrite <- map_app in RI. assert (C : bcnt i' = zlen ks + 1) by (rewrite (brep_cnt _ _ _ RI), zlen_map; zl; cbn; lia). rewrite C, u64_id by lia.
        destruct (del_step ksz i' _ (zlen ks + 1 - 1) ltac:(lia) RI ltac:(rewrite zlen_map, zlen_app; change (zlen [zlen vs]) with 1; nia) ltac:(rewrite zlen_map, zlen_app; change (zlen [zlen vs]) with 1; lia)) as (i2 & -> & R2). cbn [bind].
        rewrite <- map_ztake, <- map_zdrop, <- map_app in R2. replace (zlen ks + 1 - 1) with (zlen ks) in R2 by lia. rewrite ztake_app_exact, zdrop_app2 in R2 by lia. replace (zlen ks + 1 - zlen ks) with 1 in R2 by lia. change (zdrop 1 [zlen vs]) with (@nil Z) in R2. rewrite app_nil_r in R2.
        exists (LInt 0), (mkBG i2 (bval x)), ks, vs. split; [reflexivity|]. split; [constructor; auto|]. split; [apply LsAddOom; unfold bboth; rewrite M; now destruct (bhas_mem (fst al))|]. split; [lia|]. split; [reflexivity|apply Z.le_refl].
      * exists (LInt 1), (mkBG i' v'), (ks ++ [zlen vs]), (vs ++ [y]). split; [reflexivity|]. split.
        { constructor; cbn [bidx bval]; auto. - now rewrite map_app. - apply (NoDup_Add (Add_app (zlen vs) ks [])). rewrite app_nil_r. split; [exact ND|now apply fresh_nin]. - apply Forall_app. split; [now apply rng_up|]. constructor; [|constructor]. zl. cbn. lia. - zl. cbn. lia. }
        split; [|split; [zl; cbn; lia|eapply KP; exact RV]]. replace (vals (vs ++ [y]) (ks ++ [zlen vs])) with (vals vs ks ++ [y]); [apply LsAdd|]. unfold vals at 2. rewrite map_app. cbn [map]. rewrite vals_new. f_equal. symmetry. now apply vals_app.
  - unfold bgi_insert. destruct (add_step isz (snd al) _ _ y Hisz GV Li' IO) as [[M ->]|(v' & -> & RV)]; cbn [bind Z.eqb negb].
    + destruct x as [bi bv]. do 4 eexists. split; [reflexivity|]. split; [exact G|]. split; [apply LsInsOom; unfold bboth; rewrite M; now destruct (bhas_mem (fst al))|]. split; [lia|]. split; [reflexivity|apply Z.le_refl].
    + assert (C : u64 (bcnt v' - 1) = zlen vs). { rewrite (brep_cnt _ _ _ RV). zl. cbn. rewrite u64_id; lia. } rewrite C.
      destruct (ins_step ksz (fst al) _ _ (enc (zlen vs)) pos ltac:(lia) GI Lk' (enc_len _) ltac:(now rewrite zlen_map)) as [[M ->]|(i' & -> & RI)]; cbn [bind Z.eqb negb].
      * exists (LInt 0), (mkBG (bidx x) (mkB (zlen vs) (bcapa v') (bmem v'))), ks, vs. pose proof (brep_back _ _ _ _ _ RV eq_refl) as RB. split; [reflexivity|]. split; [constructor; auto|]. split; [apply LsInsOom; unfold bboth; now rewrite M|]. split; [lia|]. apply (KP _ _ []). now rewrite app_nil_r.
      * rewrite <- map_ztake, <- map_zdrop in RI. change (enc (zlen vs) :: map enc (zdrop pos ks)) with (map enc (zlen vs :: zdrop pos ks)) in RI. rewrite <- map_app in RI. destruct (zsplit pos ks ltac:(lia)) as (p & q & -> & P). rewrite <- P in RI |- *. rewrite ztake_app_exact, zdrop_app_exact in RI.
        exists (LInt 1), (mkBG i' v'), (p ++ zlen vs :: q), (vs ++ [y]). split; [reflexivity|]. split.
        { constructor; cbn [bidx bval]; auto.
          - apply (NoDup_Add (Add_app (zlen vs) p q)). split; [exact ND|]. now apply fresh_nin.
          - apply Forall_app in GR as [F1 F2]. apply Forall_app. split; [now apply rng_up|]. constructor; [zl; cbn; lia|now apply rng_up].
          - rewrite zlen_app in GL. rewrite !zlen_app, zlen_cons. change (zlen [y]) with 1. lia. }
        split; [|split; [zl; cbn; lia|eapply KP; exact RV]]. apply Forall_app in GR as [F1 F2].
        replace (vals (vs ++ [y]) (p ++ zlen vs :: q)) with (vals vs p ++ y :: vals vs q).
        { replace (vals vs (p ++ q)) with (vals vs p ++ vals vs q) by (unfold vals; now rewrite map_app). rewrite <- (vals_len vs p). apply LsIns. }
        symmetry. unfold vals at 1. rewrite map_app. cbn [map]. rewrite vals_new. change (vals (vs ++ [y]) p ++ y :: vals (vs ++ [y]) q = vals vs p ++ y :: vals vs q). now rewrite !vals_app by assumption.
  - unfold bgi_set. destruct (grep_key x ks vs pos G ltac:(lia) V) as (E & D & R). rewrite E. cbn [bind]. rewrite D. set (k := znth 0 ks pos) in *. destruct (brep_set isz _ _ y k Hisz GV Li' R IO) as (v' & EB & RV). rewrite EB. cbn [bind].
    exists (LInt 1), (mkBG (bidx x) v'), ks, (ztake k vs ++ y :: zdrop (k + 1) vs). assert (LL : zlen (ztake k vs ++ y :: zdrop (k + 1) vs) = zlen vs). { rewrite zlen_app, zlen_cons, zlen_ztake, zlen_zdrop by lia. lia. }
    split; [reflexivity|]. split; [constructor; cbn [bidx bval]; rewrite ?LL; auto|]. split; [|split; [lia|]].
    + pose proof (zsplit1 0 pos ks V) as SPL. fold k in SPL. set (p := ztake pos ks) in *. set (q := zdrop (pos + 1) ks) in *. assert (P : zlen p = pos) by (unfold p; apply zlen_ztake; lia). rewrite SPL in ND, GR |- *. apply Forall_app in GR as [F1 F2]. apply Forall_cons_iff in F2 as [_ F2].
      pose proof (NoDup_remove_2 _ _ _ ND) as NI. rewrite in_app_iff in NI.
      replace (vals vs (p ++ k :: q)) with (vals vs p ++ znth [] vs k :: vals vs q) by (unfold vals; now rewrite map_app).
      replace (vals (ztake k vs ++ y :: zdrop (k + 1) vs) (p ++ k :: q)) with (vals vs p ++ y :: vals vs q).
      { rewrite <- P, <- (vals_len vs p). apply LsSet. }
      rewrite <- (vals_set vs k y p), <- (vals_set vs k y q) by (auto; tauto). unfold vals. rewrite map_app. cbn [map]. f_equal. f_equal. rewrite znth_app2 by (rewrite zlen_ztake; lia). rewrite zlen_ztake, Z.sub_diag by lia. reflexivity.
    + exists (enc k). split; [reflexivity|]. rewrite D. cbn [bval]. unfold b_set in EB. destruct (zwrites (bmem (bval x)) (k * isz) y) as [m| |] eqn:W; cbn [bind] in EB; try discriminate. injection EB as <-. cbn [bmem].
      assert (LM : (k + 1) * isz <= zlen (bmem (bval x))). { destruct (brep_mem _ _ _ GV) as [j ->]. zl. rewrite (concat_len isz _ (brep_sized _ _ _ GV)). pose proof (zlen_nonneg j). nia. }
      rewrite zwrites_ok in W by nia. injection W as <-. f_equal. f_equal. f_equal. lia.
  - unfold bgi_delete. destruct (del_step ksz _ _ pos ltac:(lia) GI Lk' ltac:(now rewrite zlen_map)) as (i' & -> & RI). cbn [bind]. rewrite <- map_ztake, <- map_zdrop, <- map_app in RI. pose proof (zsplit1 0 pos ks V) as SPL. set (k := znth 0 ks pos) in *. set (p := ztake pos ks) in *. set (q := zdrop (pos + 1) ks) in *. assert (P : zlen p = pos) by (unfold p; apply zlen_ztake; lia).
    clearbody p q k. subst ks pos. exists (LInt 1), (mkBG i' (bval x)), (p ++ q), vs. split; [reflexivity|]. split.
    { constructor; cbn [bidx bval]; auto. - eapply NoDup_remove_1; eauto. - apply Forall_app in GR as [F1 F2]. apply Forall_cons_iff in F2 as [_ F2]. now apply Forall_app. - rewrite zlen_app, zlen_cons in GL. rewrite zlen_app. lia. }
    split; [|split; [lia|split; [reflexivity|apply Z.le_refl]]]. unfold vals. rewrite !map_app. cbn [map]. rewrite <- (zlen_map (znth [] vs) p). apply LsDel.
  - rewrite (grep_get x ks vs pos G ltac:(lia) V). cbn [bind]. exists (LItem (znth [] (vals vs ks) pos)), x, ks, vs. split; [reflexivity|]. split; [exact G|]. split; [|split; [lia|split; [reflexivity|lia]]].
    assert (V' : 0 <= pos < zlen (vals vs ks)) by now rewrite vals_len. pose proof (zsplit1 [] pos (vals vs ks) V') as SPL. assert (P : zlen (ztake pos (vals vs ks)) = pos) by (apply zlen_ztake; lia).
    set (e := znth [] (vals vs ks) pos) in *. set (p := ztake pos (vals vs ks)) in *. set (q := zdrop (pos + 1) (vals vs ks)) in *. rewrite SPL. rewrite <- P. apply LsGet.
Qed.
Lemma grun_ok h : forall x ks vs, grep x ks vs -> zlen vs + zlen h <= 256 ^ ksz -> (2 * (zlen vs + zlen h) + 4) * isz < 2 ^ 64 -> (2 * (zlen vs + zlen h) + 4) * ksz < 2 ^ 64 -> bgcaller_ok be n isz x h ->
  exists rs x' ks' vs', bgrun be n isz x h = Ret (rs, x') /\ grep x' ks' vs' /\ lspec_run (vals vs ks) rs (vals vs' ks') /\ zlen vs' <= zlen vs + zlen h.
Proof using Hn Hisz.
  induction h as [|[al o] h IH]; intros x ks vs G L Li Lk C; cbn [bgrun bgcaller_ok] in *.
  - exists [], x, ks, vs. split; [reflexivity|]. split; [exact G|]. split; [constructor|]. rewrite zlen_nil. lia.
  - destruct C as (IO & V & C). rewrite zlen_cons in *. pose proof (zlen_nonneg h). unfold bgi_getsize in V. rewrite (brep_cnt _ _ _ (g_i _ _ _ G)), zlen_map in V.
    destruct (gstep al x ks vs o G ltac:(lia) ltac:(nia) ltac:(nia) IO V) as (r & x' & ks' & vs' & E & G' & SP & Ln & _). rewrite E in *. cbn [bind].
    destruct (IH x' ks' vs' G' ltac:(lia) ltac:(nia) ltac:(nia) C) as (rs & x2 & ks2 & vs2 & -> & G2 & SP2 & L2). cbn [bind]. do 4 eexists. split; [reflexivity|]. split; [exact G2|]. split; [econstructor; eauto|lia].
Qed.
Lemma init_grep : grep bgi_init [] [].
Proof using. clear Hn Hisz.
  constructor; try constructor; cbn. - exists tglist_init. split; [apply sim_init|apply init_trep]. - exists tglist_init. split; [apply sim_init|apply init_trep]. - lia.
Qed.
Lemma grep_layout x ks vs : grep x ks vs -> bglayout be n isz x ks vs.
Proof using. clear Hn Hisz.
  intros G. repeat split; try (rewrite (brep_cnt _ _ _ (g_i _ _ _ G)); apply zlen_map); try apply (brep_cnt _ _ _ (g_v _ _ _ G)); try apply G; try (eapply brep_mem; apply G).
  - pose proof (g_rng _ _ _ G) as F. rewrite Forall_forall in F. now apply F.
  - pose proof (g_rng _ _ _ G) as F. rewrite Forall_forall in F. now apply F.
  - intros v I. pose proof (brep_sized _ _ _ (g_v _ _ _ G)) as F. unfold sized in F. rewrite Forall_forall in F. now apply F.
Qed.
End G.
