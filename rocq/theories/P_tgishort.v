(** Proofs for M_tgishort. *)
From Verif Require Import Base Cstr M_tglist M_tgishort S_tglist D_tglist D_tgishort P_tglist P_tgilist.

Lemma sidx_small im v : 0 <= v < im / 2 -> sidx im v = v mod im.
Proof. intros H. assert (im / 2 <= im) by (Z.div_mod_to_equations; lia). unfold sidx. rewrite Z.mod_small by lia. now replace (v <? im / 2) with true by lia. Qed.
Lemma sidx_big im v : im / 2 <= v < im -> 0 <= v -> sidx im v < 0.
Proof. intros H V. unfold sidx. rewrite Z.mod_small by lia. replace (v <? im / 2) with false by lia. lia. Qed.

Section P.
Context {A : Type}.
Variables im ksz isz : Z.
Hypothesis Hk : 1 <= ksz.
Hypothesis Hi : 1 <= isz.
Hypothesis Him : im <= 2 ^ 64.

(** with less than im / 2 values stored the sign does not matter *)
Lemma sexec_same al (x : tgi A) (o : lop A) vs : trep isz (gval x) vs -> zlen vs < im / 2 -> (2 * zlen vs + 4) * isz < 2 ^ 64 -> sexec im ksz isz al x o = gexec im ksz isz al x o.
Proof using All.
  intros R M L. pose proof (zlen_nonneg vs) as Nn. destruct o as [y|y pos|y pos|pos|pos]; cbn [sexec gexec]; try reflexivity.
  - unfold tgilist_add_s, tgilist_add. rewrite (r_cnt _ _ _ R). now rewrite sidx_small by lia.
  - unfold tgilist_insert_s, tgilist_insert. destruct (add_ok isz Hi (snd al) (gval x) vs y R L) as [r [v' [-> [[-> [-> Ha]]|[-> Gv']]]]]; cbn [bind Z.eqb]; [reflexivity|].
    pose proof (trep_u64 isz Hi _ _ Gv') as [_ Hu]. rewrite (r_cnt _ _ _ Gv'). rewrite zlen_app in *. change (zlen [y]) with 1 in *. rewrite u64_id by lia. now rewrite sidx_small by lia.
Qed.
Lemma srun_same h : forall (x : tgi A) ks vs xs, grep ksz isz x ks vs -> pick vs ks xs -> zlen vs + zlen h <= im / 2 ->
  (2 * (zlen ks + zlen h) + 4) * ksz < 2 ^ 64 -> (2 * (zlen vs + zlen h) + 4) * isz < 2 ^ 64 -> scaller_ok im ksz isz x h -> srun im ksz isz x h = grun im ksz isz x h /\ gcaller_ok im ksz isz x h.
Proof using All.
  induction h as [|[al o] h IH]; intros x ks vs xs HG HP HM HLk HLv HC; [split; [reflexivity|exact I]|]. cbn [srun grun gcaller_ok scaller_ok] in *. destruct HC as [HV HC]. zl. zpos.
  assert (im / 2 <= im) by (Z.div_mod_to_equations; lia).
  rewrite (sexec_same al x o vs) in * by (try apply HG; try lia; nia).
  destruct (gexec_ok im ksz isz Hk Hi al x ks vs xs o HG HP ltac:(lia) ltac:(nia) ltac:(nia) HV) as [r [x' [ks' [vs' [xs' [E [HG' [HP' [HS [H1 [H2 _]]]]]]]]]]].
  rewrite E in *. cbn [bind]. destruct (IH x' ks' vs' xs' HG' HP' ltac:(lia) ltac:(nia) ltac:(nia) HC) as [-> C]. auto.
Qed.
(** any number of additions *)
Record srep (x : tgi A) (vs : list A) (ks : list Z) : Prop := mkSrep { s_val : trep isz (gval x) vs; s_idx : trep ksz (gidx x) ks }.
Lemma add_s_ok ai av x vs ks y : srep x vs ks -> ai <> None -> av <> None -> (2 * zlen vs + 4) * isz < 2 ^ 64 -> (2 * zlen ks + 4) * ksz < 2 ^ 64 ->
  exists x', tgilist_add_s im ksz isz ai av x y = Ret (1, x') /\ srep x' (vs ++ [y]) (ks ++ [sidx im (zlen vs)]).
Proof using All.
  intros [V I] Ai Av Lv Lk. unfold tgilist_add_s. rewrite (r_cnt _ _ _ V).
  destruct (add_ok ksz Hk ai (gidx x) ks (sidx im (zlen vs)) I Lk) as [r [i' [-> [[-> [-> Ha]]|[-> I']]]]]; [destruct ai; [discriminate|congruence]|]. cbn [bind Z.eqb].
  destruct (add_ok isz Hi av (gval x) vs y V Lv) as [r [v' [-> [[-> [-> Ha]]|[-> V']]]]]; [destruct av; [discriminate|congruence]|]. cbn [bind Z.eqb negb]. eexists. split; [reflexivity|]. split; assumption.
Qed.
Lemma insert_s_ok ai av x vs p q y pos : srep x vs (p ++ q) -> pos = zlen p -> (2 * zlen vs + 4) * isz < 2 ^ 64 -> (2 * zlen (p ++ q) + 4) * ksz < 2 ^ 64 ->
  exists r x', tgilist_insert_s im ksz isz ai av x y pos = Ret (r, x') /\
  (r = 1 /\ srep x' (vs ++ [y]) (p ++ sidx im (zlen vs) :: q) \/ r = 0 /\ srep x' vs (p ++ q) /\ (ai = None \/ av = None)).
Proof using All.
  intros [V I] Hp Lv Lk. pose proof (zlen_nonneg vs) as Nn. unfold tgilist_insert_s.
  destruct (add_ok isz Hi av (gval x) vs y V Lv) as [r [v' [-> [[-> [-> Ha]]|[-> V']]]]]; cbn [bind Z.eqb].
  - do 2 eexists. split; [reflexivity|]. right. split; [reflexivity|]. split; [split; assumption|]. right. destruct av; [discriminate|reflexivity].
  - pose proof (trep_u64 isz Hi _ _ V') as [_ Hu]. rewrite zlen_app in Hu. change (zlen [y]) with 1 in Hu. rewrite (r_cnt _ _ _ V'). rewrite zlen_app. change (zlen [y]) with 1. rewrite u64_id by lia. replace (zlen vs + 1 - 1) with (zlen vs) by lia.
    destruct (insert_ok ksz Hk ai (gidx x) p q (sidx im (zlen vs)) pos I Lk Hp) as [r [i' [-> [[-> [-> Ha]]|[-> I']]]]]; cbn [bind Z.eqb negb].
    + do 2 eexists. split; [reflexivity|]. right. split; [reflexivity|]. split; [|left; destruct ai; [discriminate|reflexivity]]. split; [|exact I]. cbn [gval]. pose proof (trep_shrink isz Hi v' vs y V') as HS. rewrite (r_cnt _ _ _ V') in HS. rewrite zlen_app in HS. change (zlen [y]) with 1 in HS. rewrite u64_id in HS by lia. now replace (zlen vs + 1 - 1) with (zlen vs) in HS by lia.
    + do 2 eexists. split; [reflexivity|]. left. split; [reflexivity|]. split; assumption.
Qed.
Lemma srep_get x vs ks pos : srep x vs ks -> 0 <= pos < zlen ks ->
  (0 <= znth 0 ks pos < zlen vs -> forall d, tgilist_get x pos = Ret (znth d vs (znth 0 ks pos))) /\ (znth 0 ks pos < 0 -> tgilist_get x pos = UB).
Proof using All.
  intros [V I] Hp. unfold tgilist_get. rewrite (get_znth _ _ _ pos 0 I) by lia. cbn [bind]. split; intros H; [intros d; apply (get_znth isz _ _ _ d V H)|]. unfold tglist_get. now rewrite zread_oob by lia.
Qed.
Definition slots (n : nat) : list Z := map (fun k => sidx im (Z.of_nat k)) (seq 0 n).
Lemma slots_S n : slots (S n) = slots n ++ [sidx im (Z.of_nat n)].
Proof using im. unfold slots. rewrite seq_S, map_app. reflexivity. Qed.
Lemma zlen_slots n : zlen (slots n) = Z.of_nat n.
Proof using im. unfold slots, zlen. now rewrite map_length, seq_length. Qed.
Lemma znth_slots n k : 0 <= k < Z.of_nat n -> znth 0 (slots n) k = sidx im k.
Proof using im.
  intros K. unfold znth, slots. rewrite nth_indep with (d' := sidx im (Z.of_nat 0)) by (rewrite map_length, seq_length; lia). rewrite (map_nth (fun k => sidx im (Z.of_nat k))). rewrite seq_nth by lia. f_equal. lia.
Qed.
Lemma adds_ok ys : forall x vs, srep x vs (slots (length vs)) -> (2 * (zlen vs + zlen ys) + 4) * isz < 2 ^ 64 -> (2 * (zlen vs + zlen ys) + 4) * ksz < 2 ^ 64 -> Forall (fun p => fst (fst p) <> None /\ snd (fst p) <> None) ys ->
  exists x', sadds im ksz isz x ys = Ret x' /\ srep x' (vs ++ map snd ys) (slots (length (vs ++ map snd ys))).
Proof using All.
  induction ys as [|[[ai av] y] ys IH]; intros x vs R L1 L2 F; cbn [sadds map fst snd]; [exists x; rewrite app_nil_r; auto|].
  apply Forall_cons_iff in F as [[F1 F2] F]. cbn [fst snd] in F1, F2. zl. zpos.
  assert (Ls : zlen (slots (length vs)) = zlen vs) by (rewrite zlen_slots; reflexivity).
  destruct (add_s_ok ai av x vs _ y R F1 F2 ltac:(nia) ltac:(rewrite Ls; nia)) as (x1 & -> & R1). cbn [bind].
  destruct (IH x1 (vs ++ [y])) as (x' & E & R'); [|rewrite zlen_app; change (zlen [y]) with 1; nia|rewrite zlen_app; change (zlen [y]) with 1; nia|exact F|].
  - rewrite app_length. cbn [length]. replace (length vs + 1)%nat with (S (length vs)) by lia. rewrite slots_S. exact R1.
  - exists x'. rewrite <- app_assoc in R'. auto.
Qed.
Lemma sinit_rep : srep tgilist_init [] [].
Proof using All. split; apply init_trep. Qed.
End P.

(** ** the test *)
Section T.
Variables (ai av : nat -> talloc Z).
Notation slot := (slots 65536).
Notation vals n := (map Z.of_nat (seq 0 n)).
Notation rp := (srep (A := Z) 2 4).
Definition mem_ok : Prop := forall k, ai k <> None /\ av k <> None.
Lemma ins_loop_ok n : forall i x, Z.of_nat i + Z.of_nat n <= 65536 -> rp x (vals i) (slot i) ->
  exists r, ins_loop ai av n (Z.of_nat i) x = Ret r /\ match r with Some x' => rp x' (vals (i + n)) (slot (i + n)) | None => ~ mem_ok end.
Proof.
  induction n as [|n IH]; intros i x L R; cbn [ins_loop]; [exists (Some x); rewrite Nat.add_0_r; auto|].
  assert (Lv : zlen (vals i) = Z.of_nat i) by (unfold zlen; now rewrite map_length, seq_length). assert (Lk : zlen (slot i) = Z.of_nat i) by (rewrite zlen_slots; lia).
  unfold ins. rewrite Nat2Z.id, !u64_id by lia. destruct (insert_s_ok 65536 2 4 ltac:(lia) ltac:(lia) ltac:(lia) (ai i) (av i) x (vals i) (slot i) [] (Z.of_nat i) (Z.of_nat i)) as (r & x' & -> & C); rewrite ?app_nil_r; [assumption|lia|lia|lia|]. cbn [bind]. rewrite app_nil_r in C.
  destruct C as [(-> & R')|(-> & R' & Na)]; destruct R' as [V I]; unfold tgilist_getsize; rewrite (r_cnt _ _ _ I).
  - rewrite zlen_app, Lk. change (zlen [_]) with 1. rewrite Z.eqb_refl. replace (Z.of_nat i + 1) with (Z.of_nat (S i)) by lia. replace (i + S n)%nat with (S i + n)%nat by lia. apply IH; [lia|]. rewrite slots_S by lia. rewrite seq_S, map_app. cbn [map Nat.add]. rewrite Lv in I. split; assumption.
  - rewrite Lk. replace (Z.of_nat i =? Z.of_nat i + 1) with false by lia. exists None. split; [reflexivity|]. intros M. destruct (M i). destruct Na; contradiction.
Qed.
Lemma gets_ok x vs ks l : rp x vs ks -> Forall (fun p => 0 <= fst p < zlen ks /\ 0 <= znth 0 ks (fst p) < zlen vs /\ znth 0 vs (znth 0 ks (fst p)) = snd p) l -> gets x l = Ret true.
Proof.
  intros R F. induction F as [|[pos v] l (P & K & E) F IH]; [reflexivity|]. cbn [fst snd gets] in *. destruct (srep_get 65536 2 4 ltac:(lia) ltac:(lia) ltac:(lia) x vs ks pos R P) as [G _]. rewrite (G K 0). cbn [bind]. rewrite E, Z.eqb_refl. exact IH.
Qed.
Lemma vals_nth n k : 0 <= k < Z.of_nat n -> znth 0 (vals n) k = k.
Proof. intros K. unfold znth. change 0 with (Z.of_nat 0) at 1. rewrite map_nth, seq_nth by lia. lia. Qed.
Lemma test_ok N : 16001 <= N < 65536 ->
  exists r, insert_test ai av N = r /\ (N <= 32767 -> exists b, r = Ret b /\ (mem_ok -> b = true)) /\ (32768 <= N -> mem_ok -> r = UB).
Proof.
  intros HN. eexists. split; [reflexivity|]. unfold insert_test.
  destruct (ins_loop_ok (Z.to_nat N) 0 tgilist_init ltac:(lia)) as (r & E & C); [split; apply init_trep; lia|]. change (Z.of_nat 0) with 0 in E. rewrite E. cbn [bind Nat.add] in *.
  destruct r as [x|]; [|split; [intros _; exists false; split; [reflexivity|intros M; contradiction]|intros _ M; contradiction]].
  set (n := Z.to_nat N) in *. assert (Hn : Z.of_nat n = N) by lia. clearbody n. subst N.
  assert (Lv : zlen (vals n) = Z.of_nat n) by (unfold zlen; now rewrite map_length, seq_length). assert (Lk : zlen (slot n) = Z.of_nat n) by (rewrite zlen_slots; lia).
  assert (Sl : forall k, 0 <= k < Z.of_nat n -> k < 32768 -> znth 0 (slot n) k = k) by (intros k K1 K2; rewrite znth_slots by lia; rewrite sidx_small by (change (65536 / 2) with 32768; lia); apply Z.mod_small; lia).
  rewrite (gets_ok x _ _ _ C).
  2:{ repeat (apply Forall_cons || apply Forall_nil); cbn [fst snd]; rewrite Lk, Lv, Sl by lia; (split; [lia|]); (split; [lia|]); apply vals_nth; lia. }
  cbn [bind negb]. unfold ins.
  assert (Sp : exists p q, slot n = p ++ q /\ zlen p = 3) by (apply zsplit; lia). destruct Sp as (p & q & Epq & Lp).
  pose proof C as C0. rewrite Epq in C0.
  destruct (insert_s_ok 65536 2 4 ltac:(lia) ltac:(lia) ltac:(lia) (ai n) (av n) x (vals n) p q 3 3 C0) as (r & x' & -> & D); [lia|lia|rewrite <- Epq, Lk; lia|]. cbn [bind].
  destruct D as [(-> & R')|(-> & R' & Na)]; cbn [Z.eqb].
  - assert (Lq : zlen q = Z.of_nat n - 3) by (rewrite Epq, zlen_app in Lk; lia).
    assert (Q : forall k, 3 <= k < Z.of_nat n -> k < 32768 -> znth 0 q (k - 3) = k) by (intros k K1 K2; rewrite <- (Sl k) at 2 by lia; rewrite Epq, znth_app2 by lia; now rewrite Lp).
    rewrite Lv in R'. split; intros B.
    + exists true. split; [|reflexivity]. apply (gets_ok _ _ _ _ R'). rewrite (sidx_small 65536) by (change (65536 / 2) with 32768; lia). rewrite Z.mod_small by lia.
      assert (L2 : zlen (p ++ Z.of_nat n :: q) = Z.of_nat n + 1) by (rewrite zlen_app, zlen_cons; lia). assert (L3 : zlen (vals n ++ [3]) = Z.of_nat n + 1) by (rewrite zlen_app, Lv; reflexivity).
      repeat (apply Forall_cons || apply Forall_nil); cbn [fst snd]; rewrite L2, L3.
      * assert (E3 : znth 0 (p ++ Z.of_nat n :: q) 3 = Z.of_nat n) by (rewrite <- Lp; apply znth_app_exact). rewrite E3. split; [lia|]. split; [lia|]. rewrite <- Lv. apply znth_app_exact.
      * rewrite znth_app2, Lp by lia. rewrite znth_consS by lia. change (4 - 3 - 1) with (3 - 3). rewrite Q by lia. split; [lia|]. split; [lia|]. rewrite znth_app1 by lia. apply vals_nth. lia.
      * rewrite znth_app2, Lp by lia. rewrite znth_consS by lia. change (16000 - 3 - 1) with (15999 - 3). rewrite Q by lia. split; [lia|]. split; [lia|]. rewrite znth_app1 by lia. apply vals_nth. lia.
    + intros _. cbn [gets]. assert (P3 : 0 <= 3 < zlen (p ++ sidx 65536 (Z.of_nat n) :: q)) by (rewrite zlen_app, zlen_cons; lia).
      destruct (srep_get 65536 2 4 ltac:(lia) ltac:(lia) ltac:(lia) x' _ _ 3 R' P3) as [_ G]. rewrite G; [reflexivity|]. rewrite <- Lp at 1. rewrite znth_app_exact. apply sidx_big; [change (65536 / 2) with 32768; lia|lia].
  - assert (~ mem_ok) by (intros M; destruct (M n); destruct Na; contradiction). split; [intros _; exists false; split; [reflexivity|contradiction]|contradiction].
Qed.
End T.
