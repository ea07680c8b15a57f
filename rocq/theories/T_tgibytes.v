(** C124: tgilist on the bytes of its two blocks. *)
From Verif Require Import Base Bits M_tglist S_tglist D_tglist P_tglist M_tgbytes D_tgbytes P_tgbytes M_endianbe T_endianbe M_tgibytes D_tgibytes P_tgibytes.

(** every history of at most 256^n operations answers like a list of byte strings and leaves
    the indices of n bytes and the values in the two blocks *)
Theorem c124_history : forall be n isz h, (1 <= n)%nat -> 1 <= isz -> zlen h <= 256 ^ Z.of_nat n ->
  (2 * zlen h + 4) * isz < 2 ^ 64 -> (2 * zlen h + 4) * Z.of_nat n < 2 ^ 64 -> bgcaller_ok be n isz bgi_init h ->
  exists rs x ks vs, bgrun be n isz bgi_init h = Ret (rs, x) /\ lspec_run [] rs (map (znth [] vs) ks) /\
    bgreads be n isz x (map (znth [] vs) ks) /\ bglayout be n isz x ks vs.
Proof.
  intros be n isz h Hn Hi L Li Lk C. destruct (grun_ok be n isz Hn Hi h _ _ _ (init_grep be n isz) ltac:(cbn; exact L) ltac:(cbn; exact Li) ltac:(cbn; exact Lk) C) as (rs & x & ks & vs & R & G & SP & LV).
  exists rs, x, ks, vs. split; [exact R|]. split; [exact SP|]. split; [|now apply grep_layout].
  split; [unfold bgi_getsize; rewrite (brep_cnt _ _ _ (g_i _ _ _ _ _ _ G)), !zlen_map; reflexivity|]. intros i I. rewrite zlen_map in I. cbn [zlen length] in LV. apply (grep_get be n isz Hn Hi x ks vs i G); [unfold zlen in *; cbn [length] in LV; lia|exact I].
Qed.
Print Assumptions c124_history.

(** the next operation writes in the value block only behind the values, or over the one set *)
Theorem c124_values_stay : forall be n isz h rs x al o, (1 <= n)%nat -> 1 <= isz -> zlen h < 256 ^ Z.of_nat n ->
  (2 * zlen h + 6) * isz < 2 ^ 64 -> (2 * zlen h + 6) * Z.of_nat n < 2 ^ 64 -> bgcaller_ok be n isz bgi_init h ->
  bgrun be n isz bgi_init h = Ret (rs, x) -> item_ok isz o -> lvalid (bgi_getsize x) o ->
  exists r x', bgexec be n isz al x o = Ret (r, x') /\ bgkept be n isz x x' o.
Proof.
  intros be n isz h rs x al o Hn Hi L Li Lk C R IO V. pose proof (zlen_nonneg h). destruct (grun_ok be n isz Hn Hi h _ _ _ (init_grep be n isz) ltac:(cbn; lia) ltac:(change (zlen (@nil (list Z))) with 0; nia) ltac:(change (zlen (@nil (list Z))) with 0; nia) C) as (rs' & x' & ks & vs & R' & G & _ & LV).
  rewrite R in R'. injection R' as <- <-. change (zlen (@nil (list Z))) with 0 in LV. pose proof (zlen_nonneg vs). unfold bgi_getsize in V. rewrite (brep_cnt _ _ _ (g_i _ _ _ _ _ _ G)), zlen_map in V.
  destruct (gstep be n isz Hn Hi al x ks vs o G ltac:(lia) ltac:(nia) ltac:(nia) IO V) as (r & x2 & _ & _ & E & _ & _ & _ & K). now exists r, x2.
Qed.
Print Assumptions c124_values_stay.

Definition adds (als : list ((Z -> Z) * (Z -> Z))) (ys : list (list Z)) : list ((balloc * balloc) * lop (list Z)) :=
  map (fun p => ((Some (fst (fst p)), Some (snd (fst p))), LAdd (snd p))) (combine als ys).
Lemma adds_run be n isz : (1 <= n)%nat -> 1 <= isz -> forall ys als x ks vs, length als = length ys -> brep (Z.of_nat n) (bidx x) (map (obj be n) ks) -> brep isz (bval x) vs -> zlen ks = zlen vs -> sized isz ys ->
  (2 * (zlen vs + zlen ys) + 4) * isz < 2 ^ 64 -> (2 * (zlen vs + zlen ys) + 4) * Z.of_nat n < 2 ^ 64 ->
  exists rs x' ks', bgrun be n isz x (adds als ys) = Ret (rs, x') /\ map snd rs = repeat (LInt 1) (length ys) /\ brep (Z.of_nat n) (bidx x') (map (obj be n) ks') /\ brep isz (bval x') (vs ++ ys) /\ ks' = ks ++ map (fun i => zlen vs + Z.of_nat i) (seq 0 (length ys)).
Proof.
  intros Hn Hi. induction ys as [|y ys IH]; intros als x ks vs LA RI RV LK S Li Lk.
  - exists [], x, ks. destruct als; [|discriminate]. cbn. rewrite !app_nil_r. auto.
  - destruct als as [|[j1 j2] als]; [discriminate|]. cbn [length] in LA. injection LA as LA. unfold adds. cbn [combine map bgrun fst snd bgexec]. apply Forall_cons_iff in S as [Sy S]. rewrite zlen_cons in *. pose proof (zlen_nonneg ys). pose proof (zlen_nonneg vs).
    unfold bgi_add. cbn [fst snd]. rewrite (brep_cnt _ _ _ RV).
    destruct (add_step (Z.of_nat n) (Some j1) _ _ (obj be n (zlen vs)) ltac:(lia) RI ltac:(rewrite zlen_map; nia) (enc_len be n _)) as [[M _]|(i' & -> & RI')]; [discriminate|]. cbn [bind Z.eqb].
    destruct (add_step isz (Some j2) _ _ y Hi RV ltac:(nia) Sy) as [[M _]|(v' & -> & RV')]; [discriminate|]. cbn [bind Z.eqb negb].
    change [obj be n (zlen vs)] with (map (obj be n) [zlen vs]) in RI'. rewrite <- map_app in RI'.
    assert (L1 : zlen (vs ++ [y]) = zlen vs + 1) by (rewrite zlen_app; reflexivity).
    destruct (IH als (mkBG i' v') (ks ++ [zlen vs]) (vs ++ [y]) LA RI' RV' ltac:(rewrite !zlen_app; change (zlen [zlen vs]) with 1; change (zlen [y]) with 1; lia) S ltac:(rewrite L1; nia) ltac:(rewrite L1; nia)) as (rs & x2 & ks2 & R2 & SR & RI2 & RV2 & K2).
    unfold adds in R2. rewrite R2. cbn [bind]. do 3 eexists. split; [reflexivity|]. split; [cbn [map snd length repeat]; now rewrite SR|]. split; [exact RI2|]. split; [now rewrite <- app_assoc in RV2|].
    rewrite K2, <- app_assoc. cbn [app length seq map]. f_equal. f_equal; [lia|]. rewrite L1, <- seq_shift, map_map. apply map_ext. intros i. lia.
Qed.

(** one value more than the index type has values: it is stored, but its position reads as the
    first value *)
Theorem c124_too_many_refuted : forall be n isz als ys y j1 j2, (1 <= n)%nat -> 1 <= isz -> length als = length ys -> sized isz (ys ++ [y]) -> zlen ys = 256 ^ Z.of_nat n ->
  (2 * zlen ys + 6) * isz < 2 ^ 64 -> (2 * zlen ys + 6) * Z.of_nat n < 2 ^ 64 ->
  exists rs x, bgrun be n isz bgi_init (adds (als ++ [(j1, j2)]) (ys ++ [y])) = Ret (rs, x) /\ map snd rs = repeat (LInt 1) (length ys + 1) /\
    bgi_getsize x = zlen ys + 1 /\ bgi_get be n isz x (zlen ys) = Ret (znth [] ys 0) /\ b_get isz (bval x) (zlen ys) = Ret y.
Proof.
  intros be n isz als ys y j1 j2 Hn Hi LA S L Li Lk.
  assert (R0 : forall sz, brep sz b_init []) by (intros sz; exists tglist_init; split; [apply sim_init|apply init_trep]).
  assert (LL : zlen (ys ++ [y]) = zlen ys + 1) by (rewrite zlen_app; reflexivity). pose proof (zlen_nonneg ys).
  destruct (adds_run be n isz Hn Hi (ys ++ [y]) (als ++ [(j1, j2)]) bgi_init [] [] ltac:(rewrite !app_length; cbn; lia) (R0 _) (R0 _) eq_refl S ltac:(change (zlen (@nil (list Z))) with 0; rewrite LL; nia) ltac:(change (zlen (@nil (list Z))) with 0; rewrite LL; nia)) as (rs & x & ks & R & SR & RI & RV & K).
  exists rs, x. split; [exact R|]. split; [rewrite SR, app_length; reflexivity|].
  assert (LK : zlen ks = zlen ys + 1). { rewrite K. cbn [app]. unfold zlen. rewrite map_length, seq_length, app_length. cbn. lia. }
  split; [unfold bgi_getsize; now rewrite (brep_cnt _ _ _ RI), zlen_map, LK|]. cbn [app] in RV. split; [|rewrite (brep_get isz _ _ _ Hi RV) by lia; f_equal; rewrite znth_app2 by lia; now rewrite Z.sub_diag].
  unfold bgi_get. rewrite (brep_get (Z.of_nat n) _ _ _ ltac:(lia) RI) by (rewrite zlen_map; lia). rewrite (znth_map (obj be n) 0 []) by lia. cbn [bind]. rewrite load_obj.
  assert (KL : znth 0 ks (zlen ys) = zlen ys). { rewrite K. cbn [app]. unfold znth, zlen. rewrite Nat2Z.id. change (zlen (@nil (list Z))) with 0. rewrite (nth_indep _ 0 (0 + Z.of_nat 0)) by (rewrite map_length, seq_length, app_length; cbn; lia). rewrite (map_nth (fun i => 0 + Z.of_nat i)), seq_nth by (rewrite app_length; cbn; lia). lia. }
  rewrite KL, L, Z.mod_same by (apply Z.pow_nonzero; lia). assert (0 < 256 ^ Z.of_nat n) by (apply Z.pow_pos_nonneg; lia). rewrite (brep_get isz _ _ _ Hi RV) by lia. f_equal. apply znth_app1. lia.
Qed.
Print Assumptions c124_too_many_refuted.

(** indices of two bytes on a big endian machine, values of three bytes; the fourth
    operation has no memory for the index and needs none *)
Example c124_ex : let m := (Some (fun _ => 170), Some (fun _ => 187)) in
  match bgrun true 2 3 bgi_init [(m, LAdd [1; 2; 3]); (m, LIns [4; 5; 6] 0); (m, LDel 1); ((None, Some (fun _ => 187)), LIns [9; 9; 9] 0); (m, LAdd [7; 8; 9]); (m, LSet [0; 0; 0] 0); (m, LGet 1)] with
  | Ret (rs, x) => map snd rs = [LInt 1; LInt 1; LInt 1; LInt 1; LInt 1; LInt 1; LItem [4; 5; 6]] /\
      bmem (bidx x) = [0; 2; 0; 1; 0; 3; 170; 170] /\ bmem (bval x) = [1; 2; 3; 4; 5; 6; 0; 0; 0; 7; 8; 9]
  | _ => False
  end.
Proof. vm_compute. repeat split. Qed.
(** no memory for the first index *)
Example c124_ex_oom : match bgrun false 2 3 bgi_init [((None, Some (fun _ => 187)), LIns [1; 2; 3] 0)] with
  | Ret (rs, x) => map snd rs = [LInt 0] /\ bcnt (bval x) = 0 /\ bcapa (bval x) = 4 | _ => False end.
Proof. vm_compute. repeat split. Qed.
Example c124_ex_ok : bgcaller_ok false 1 3 bgi_init [((Some (fun _ => 1), None), LAdd [1; 2; 3]); ((Some (fun _ => 1), Some (fun _ => 2)), LAdd [1; 2; 3]); ((None, None), LGet 0)].
Proof. vm_compute. repeat split; intros; discriminate. Qed.
