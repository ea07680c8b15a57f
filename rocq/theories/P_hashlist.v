(** Proofs about hashlist. *)
From Verif Require Import Base M_sblist D_sblist P_sblist P_hbmap M_hashlist S_hashlist D_hashlist.

(** bucket b holds vs *)
Definition brep (lim dsz : Z) (b : option sbl) (vs : list (list Z)) : Prop :=
  match b with None => vs = [] | Some l => Inv lim l vs /\ isz l = dsz /\ bits l = 8 end.
Definition hrep (lim dsz nb : Z) (h : hashlist) (adds : list (Z * list Z)) : Prop :=
  zlen (hbuckets h) = nb /\ hdatasize h = dsz /\
  forall b, 0 <= b < nb -> brep lim dsz (znth None (hbuckets h) b) (bucket_vals nb b adds).
(** no bucket list is empty *)
Definition hfull (h : hashlist) : Prop :=
  forall b l, 0 <= b < zlen (hbuckets h) -> znth None (hbuckets h) b = Some l -> 0 < cnt l.

Lemma zread_eq {A} (b : list A) i d : 0 <= i < zlen b -> zread b i = Ret (znth d b i).
Proof. apply zread_ok. Qed.
Lemma bucket_vals_app nb b l1 l2 : bucket_vals nb b (l1 ++ l2) = bucket_vals nb b l1 ++ bucket_vals nb b l2.
Proof. unfold bucket_vals. now rewrite filter_app, map_app. Qed.
Lemma bucket_vals_len nb b l : zlen (bucket_vals nb b l) <= zlen l.
Proof.
  induction l as [|[x v] l IH]; [reflexivity|]. unfold bucket_vals in *. cbn [filter fst].
  rewrite zlen_cons. destruct (_ =? _); cbn [map]; rewrite ?zlen_cons; lia.
Qed.
Lemma new_rep lim dsz nb : 0 <= nb -> hrep lim dsz nb (hashlist_new nb dsz) [].
Proof.
  intros. unfold hrep, hashlist_new; cbn [hbuckets hdatasize]. rewrite zlen_zrepeat by lia. split; [reflexivity|]. split; [reflexivity|].
  intros b Hb. rewrite znth_zrepeat by lia. reflexivity.
Qed.
Lemma new_full dsz nb : 0 <= nb -> hfull (hashlist_new nb dsz).
Proof. intros H b l. unfold hashlist_new; cbn [hbuckets]. rewrite zlen_zrepeat by lia. intros Hb. rewrite znth_zrepeat by lia. discriminate. Qed.

Lemma add_rep lim dsz nb h adds nw al hash v :
  hrep lim dsz nb h adds -> 1 <= nb -> 1 <= dsz -> 0 <= hash -> zlen v = dsz -> zlen adds + 8 <= lim -> lim * dsz < 2 ^ 64 ->
  exists r h', hashlist_add nw al h hash v = Ret (r, h') /\
    (r = 0 /\ hrep lim dsz nb h' (adds ++ [(hash, v)]) \/
     (r = -1 \/ r = 1) /\ hrep lim dsz nb h' adds /\ ~ (nw = true /\ al <> None)) /\
    (hfull h -> nw = true /\ al <> None -> hfull h').
Proof.
  intros (L & D & R) Hnb Hd Hh Hv HL HM. unfold hashlist_add. rewrite L.
  replace (nb =? 0) with false by lia.
  assert (Hb : 0 <= hash mod nb < nb) by (apply Z.mod_pos_bound; lia).
  set (b := hash mod nb) in *. rewrite (zread_eq _ b None) by lia. cbn [bind].
  pose proof (R b Hb) as Rb.
  assert (X : exists ob, match znth None (hbuckets h) b with
              | Some l => Ret (Some l)
              | None => if nw then let* l := sblist_init (hdatasize h) 8 in Ret (Some l) else Ret None
              end = Ret ob /\ match ob with
                              | None => nw = false
                              | Some l => Inv lim l (bucket_vals nb b adds) /\ isz l = dsz /\ bits l = 8 end).
  { destruct (znth None (hbuckets h) b) as [l|].
    - exists (Some l). split; [reflexivity|exact Rb].
    - destruct nw; [|exists None; auto]. rewrite D. destruct (init_ok dsz 8) as (l & -> & I1 & I2 & I3); [lia..|].
      exists (Some l). split; [reflexivity|]. cbn in Rb. rewrite Rb. pose proof (zlen_nonneg adds). split; [apply I3; lia|auto]. }
  destruct X as (ob & -> & RO). cbn [bind]. destruct ob as [l|].
  2:{ subst nw. exists (-1), h. split; [reflexivity|]. split; [right; split; [auto|]; split; [split; auto|]; intros [? _]; discriminate|].
      intros _ [? _]; discriminate. }
  destruct RO as (I & E1 & E2).
  pose proof (bucket_vals_len nb b adds) as BL.
  destruct (add_ok lim al l _ v I) as (r & l' & -> & HR); [lia|rewrite E1; lia|lia|]. cbn [bind].
  destruct (zupd (hbuckets h) b (Some l')) as (bs & -> & Lb & Rb1 & Rb2); [lia|]. cbn [bind].
  assert (RD : forall i, 0 <= i < nb -> znth None bs i = if i =? b then Some l' else znth None (hbuckets h) i).
  { intros i Hi. destruct (i =? b) eqn:E.
    - assert (i = b) by lia. subst i. rewrite (zread_eq bs b None) in Rb1 by lia. congruence.
    - assert (Hn : i <> b) by lia. specialize (Rb2 i Hn). rewrite !(zread_eq _ i None) in Rb2 by lia. congruence. }
  assert (BM : b mod nb = b) by (apply Z.mod_small; lia).
  exists (if r =? 0 then 1 else 0). eexists. split; [reflexivity|]. split.
  - destruct HR as [(-> & -> & M)|(-> & I' & F1 & F2)].
    + right. cbn [Z.eqb]. split; [auto|]. split.
      * split; [cbn [hbuckets]; lia|]. split; [exact D|]. intros i Hi. cbn [hbuckets]. rewrite RD by lia.
        destruct (i =? b) eqn:E; [|apply R; lia]. replace i with b by lia. cbn [brep]. auto.
      * intros [_ A]. destruct al; [discriminate|congruence].
    + left. cbn [Z.eqb]. split; [reflexivity|]. split; [cbn [hbuckets]; lia|]. split; [exact D|]. intros i Hi. cbn [hbuckets].
      rewrite RD by lia. rewrite bucket_vals_app. unfold bucket_vals at 2. cbn [filter fst].
      replace (i mod nb) with i by (symmetry; apply Z.mod_small; lia). fold b.
      destruct (i =? b) eqn:E.
      * replace i with b by lia. rewrite Z.eqb_refl. cbn [map snd brep]. split; [exact I'|]. split; congruence.
      * replace (b =? i) with false by lia. cbn [map]. rewrite app_nil_r. apply R; lia.
  - intros F [_ A] i l0 Hi G. cbn [hbuckets] in *. rewrite RD in G by lia. destruct (i =? b) eqn:E.
    + injection G as <-. destruct HR as [(-> & -> & M)|(-> & I' & F1 & F2)]; [destruct al; [discriminate|congruence]|].
      rewrite (i_cnt _ _ _ I'). pose proof (zlen_nonneg (bucket_vals nb b adds)). zl. lia.
    + apply (F i); [lia|exact G].
Qed.

Lemma run_rep lim dsz nb : forall l h adds, hrep lim dsz nb h adds -> 1 <= nb -> 1 <= dsz -> Forall (hadd_ok dsz) l ->
  zlen adds + zlen l + 8 <= lim -> lim * dsz < 2 ^ 64 ->
  exists ds rs h', adds_run h l = Ret (ds, rs, h') /\ hrep lim dsz nb h' (adds ++ ds) /\
    (Forall hadd_mem l -> ds = map (fun a => (snd (fst a), snd a)) l /\ rs = map (fun _ => 0) l /\ (hfull h -> hfull h')).
Proof.
  induction l as [|[[[nw al] hash] v] l IH]; intros h adds R Hnb Hd F HL HM.
  - exists [], [], h. rewrite app_nil_r. auto.
  - apply Forall_cons_iff in F as [[Hh Hv] F']. subst dsz. rewrite zlen_cons in HL. pose proof (zlen_nonneg l).
    cbn [adds_run].
    destruct (add_rep lim (zlen v) nb h adds nw al hash v R) as (r & h1 & -> & HR & HF); [lia..|]. cbn [bind].
    destruct HR as [(-> & R1)|([Hr|Hr] & R1 & N)].
    + destruct (IH h1 (adds ++ [(hash, v)]) R1) as (ds & rs & h2 & -> & R2 & M); auto.
      { zl. lia. }
      cbn [bind Z.eqb]. eexists _, _, _. split; [reflexivity|]. rewrite <- app_assoc in R2. split; [exact R2|].
      intros FM. apply Forall_cons_iff in FM as [FM1 FM2]. destruct (M FM2) as (-> & -> & G). cbn [map fst snd]. split; [reflexivity|].
      split; [reflexivity|]. cbn [hadd_mem] in FM1. auto.
    + destruct (IH h1 adds R1) as (ds & rs & h2 & -> & R2 & M); auto; [lia|].
      cbn [bind]. subst r. cbn [Z.eqb]. eexists _, _, _. split; [reflexivity|]. split; [exact R2|].
      intros FM. apply Forall_cons_iff in FM as [FM1 FM2]. cbn [hadd_mem] in FM1. contradiction.
    + destruct (IH h1 adds R1) as (ds & rs & h2 & -> & R2 & M); auto; [lia|].
      cbn [bind]. subst r. cbn [Z.eqb]. eexists _, _, _. split; [reflexivity|]. split; [exact R2|].
      intros FM. apply Forall_cons_iff in FM as [FM1 FM2]. cbn [hadd_mem] in FM1. contradiction.
Qed.

Lemma get_main nb dsz l : 1 <= nb -> 1 <= dsz -> Forall (hadd_ok dsz) l -> (zlen l + 8) * dsz < 2 ^ 64 ->
  exists ds rs h, adds_run (hashlist_new nb dsz) l = Ret (ds, rs, h) /\
    (forall hash, 0 <= hash -> exists b, hashlist_get h hash = Ret b /\
       match b with None => bucket_vals nb hash ds = [] | Some s => reads_as s (bucket_vals nb hash ds) end) /\
    (Forall hadd_mem l -> ds = map (fun a => (snd (fst a), snd a)) l /\ rs = map (fun _ => 0) l /\
       forall hash, 0 <= hash -> (hashlist_get h hash = Ret None <-> bucket_vals nb hash ds = [])).
Proof.
  intros Hnb Hd F HM. destruct (run_rep (zlen l + 8) dsz nb l (hashlist_new nb dsz) []) as (ds & rs & h & E & R & M); auto.
  { apply new_rep. lia. } { rewrite zlen_nil. lia. }
  cbn [app] in R. exists ds, rs, h. split; [exact E|]. destruct R as (L & D & R).
  assert (G : forall hash, 0 <= hash -> hashlist_get h hash = Ret (znth None (hbuckets h) (hash mod nb)) /\ 0 <= hash mod nb < nb /\
     bucket_vals nb (hash mod nb) ds = bucket_vals nb hash ds).
  { intros hash Hh. unfold hashlist_get. rewrite L. replace (nb =? 0) with false by lia. assert (0 <= hash mod nb < nb) by (apply Z.mod_pos_bound; lia).
    rewrite (zread_eq _ _ None) by lia. split; [reflexivity|]. split; [auto|]. unfold bucket_vals. rewrite Zmod_mod. reflexivity. }
  split.
  - intros hash Hh. destruct (G hash Hh) as (-> & B & V). eexists. split; [reflexivity|]. specialize (R _ B). rewrite V in R.
    destruct (znth None (hbuckets h) (hash mod nb)); [|exact R]. destruct R as (I & E1 & _). apply (inv_reads _ _ _ I). rewrite E1. lia.
  - intros FM. destruct (M FM) as (Hds & Hrs & HF). split; [exact Hds|]. split; [exact Hrs|]. intros hash Hh.
    destruct (G hash Hh) as (-> & B & V). specialize (R _ B). rewrite V in R. specialize (HF (new_full dsz nb ltac:(lia))).
    destruct (znth None (hbuckets h) (hash mod nb)) as [s|] eqn:Z0; cbn [brep] in R; [|tauto].
    split; [discriminate|]. intros E0. destruct R as (I & _ & _). specialize (HF (hash mod nb) s ltac:(lia) Z0).
    rewrite (i_cnt _ _ _ I), E0 in HF. change (0 < 0) in HF. lia.
Qed.

Lemma zdrop_cons {A} (d : A) b l : 0 <= b < zlen l -> zdrop b l = znth d l b :: zdrop (b + 1) l.
Proof.
  intros H. unfold zdrop, znth, zlen in *. replace (Z.to_nat (b + 1)) with (S (Z.to_nat b)) by lia.
  assert (L : (Z.to_nat b < length l)%nat) by lia. revert L. generalize (Z.to_nat b) as n. clear. intros n. revert l.
  induction n as [|n IH]; intros [|x l] L; cbn in L |- *; try lia; [reflexivity|]. apply IH. lia.
Qed.
Lemma firstn_repeat {A} (x : A) : forall n m, firstn n (repeat x m) = repeat x (min n m).
Proof. induction n as [|n IH]; intros [|m]; cbn; try reflexivity. now rewrite IH. Qed.

(** ---------- iteration ---------- *)
Section IT.
Variable lim dsz nb : Z.
Variable h : hashlist.
Variable VL : list (list (list Z)).
Hypothesis Hnb : 1 <= nb < 2 ^ 32.
Hypothesis HM : lim * dsz < 2 ^ 64.
Hypothesis HL : zlen (hbuckets h) = nb.
Hypothesis HV : zlen VL = nb.
Hypothesis HB : forall b, 0 <= b < nb -> brep lim dsz (znth None (hbuckets h) b) (znth [] VL b).
Hypothesis HF : hfull h.
Hypothesis Hlim : lim < 2 ^ 64 - 1.

Lemma scan_ok : forall fuel b, 0 <= b <= nb -> (Z.to_nat (nb - b) < fuel)%nat ->
  exists b', bucket_scan fuel (hbuckets h) b = Ret b' /\ b <= b' <= nb /\ concat (zdrop b VL) = concat (zdrop b' VL) /\
    (b' < nb -> exists l, znth None (hbuckets h) b' = Some l).
Proof.
  induction fuel as [|fuel IH]; intros b Hb Hf; [lia|].
  cbn [bucket_scan]. rewrite HL, u64_id by lia. destruct (b <? nb) eqn:E.
  - rewrite (zread_eq _ b None) by lia. cbn [bind]. destruct (znth None (hbuckets h) b) as [l|] eqn:Eb.
    + exists b. split; [reflexivity|]. split; [lia|]. split; [reflexivity|]. eauto.
    + destruct (IH (b + 1)) as (b' & -> & H1 & H2 & H3); [lia..|]. exists b'. split; [reflexivity|]. split; [lia|]. split; [|exact H3].
      rewrite (zdrop_cons [] b) by lia. cbn [concat]. specialize (HB b ltac:(lia)). rewrite Eb in HB. cbn [brep] in HB. rewrite HB. exact H2.
  - exists b. split; [reflexivity|]. split; [lia|]. split; [reflexivity|]. lia.
Qed.

(** rem it = what is still to come *)
Inductive at_ : hiter -> list (list Z) -> Prop :=
| AtFresh : at_ hashlist_iterator_init (concat VL)
| AtIn b p l : 0 <= b < nb -> znth None (hbuckets h) b = Some l -> 0 <= p < zlen (znth [] VL b) ->
    at_ (mkHi p b) (zdrop (p + 1) (znth [] VL b) ++ concat (zdrop (b + 1) VL))
| AtEnd p : at_ (mkHi p nb) [].

Lemma get_item b l p : 0 <= b < nb -> znth None (hbuckets h) b = Some l -> 0 <= p < zlen (znth [] VL b) ->
  exists off, sblist_get l p = Some off /\ zreads (mem l) off (isz l) = Ret (znth [] (znth [] VL b) p).
Proof.
  intros Hb Eb Hp. specialize (HB b Hb). rewrite Eb in HB. destruct HB as (I & E1 & _).
  destruct (inv_reads _ _ _ I ltac:(rewrite E1; lia)) as (_ & R & _). apply R. exact Hp.
Qed.
Lemma advance b0 : -1 <= b0 < nb -> exists b', hashlist_bucket_next h b0 = Ret ((if b' <? nb then znth None (hbuckets h) b' else None), b') /\
  b0 < b' <= nb /\ concat (zdrop (b0 + 1) VL) = concat (zdrop b' VL) /\ (b' < nb -> exists l, znth None (hbuckets h) b' = Some l).
Proof.
  intros Hb. unfold hashlist_bucket_next. destruct (scan_ok (S (length (hbuckets h))) (b0 + 1)) as (b' & -> & H1 & H2 & H3); [lia|unfold zlen in *; lia|].
  cbn [bind]. rewrite HL, u64_id by lia. exists b'. split; [|split; [lia|auto]].
  destruct (b' <? nb) eqn:E; [|reflexivity]. rewrite (zread_eq _ _ None) by lia. reflexivity.
Qed.
(** entering a bucket *)
Lemma enter b0 : -1 <= b0 < nb ->
  exists x it, (let* (b, bpos) := hashlist_bucket_next h b0 in
     let* (stop, pos, bpos) := Ret (match b with None => true | Some _ => false end, 0, bpos) in
     if stop : bool then Ret (None, mkHi pos bpos)
     else let* b := zread (hbuckets h) bpos in
          match b with
          | None => UB
          | Some l => match sblist_get l pos with
                      | None => Ret (None, mkHi pos bpos)
                      | Some off => let* x := zreads (mem l) off (isz l) in Ret (Some x, mkHi pos bpos)
                      end
          end) = Ret (x, it) /\
   match concat (zdrop (b0 + 1) VL) with [] => x = None /\ at_ it [] | y :: r => x = Some y /\ at_ it r end.
Proof.
  intros Hb. destruct (advance b0 Hb) as (b' & -> & H1 & H2 & H3). cbn [bind]. rewrite H2. destruct (b' <? nb) eqn:E.
  - destruct (H3 ltac:(lia)) as (l & El). rewrite El. cbn [bind]. rewrite (zread_eq _ _ None) by lia. rewrite El. cbn [bind].
    assert (P : 0 < zlen (znth [] VL b')).
    { pose proof (HB b' ltac:(lia)) as B. rewrite El in B. destruct B as (I & _). pose proof (HF b' l ltac:(lia) El) as C. rewrite (i_cnt _ _ _ I) in C. exact C. }
    destruct (get_item b' l 0 ltac:(lia) El ltac:(lia)) as (off & -> & ->). cbn [bind].
    eexists _, _. split; [reflexivity|]. rewrite (zdrop_cons [] b') by lia. cbn [concat].
    destruct (znth [] VL b') as [|y r] eqn:Ev; [change (0 < 0) in P; lia|]. cbn [app]. rewrite znth_cons0. split; [reflexivity|].
    pose proof (AtIn b' 0 l ltac:(lia) El) as A. rewrite Ev in A. specialize (A ltac:(lia)). exact A.
  - cbn [bind]. eexists _, _. split; [reflexivity|]. assert (b' = nb) by lia. subst b'. unfold zdrop at 1. rewrite skipn_all2 by (unfold zlen in *; lia). cbn [concat].
    split; [reflexivity|]. constructor.
Qed.
Lemma next_ok it rest : at_ it rest -> exists x it', hashlist_next h it = Ret (x, it') /\
  match rest with [] => x = None /\ at_ it' [] | y :: r => x = Some y /\ at_ it' r end.
Proof.
  intros A. unfold hashlist_next. rewrite HL. destruct A as [|b p l Hb El Hp|p]; cbn [hbpos hpos].
  - replace (nb <=? -1) with false by lia. cbn [hashlist_iterator_init hbpos hpos]. replace (nb <=? -1) with false by lia.
    cbn [Z.eqb]. change (-1 =? -1) with true. cbn [bind].
    destruct (enter (-1) ltac:(lia)) as (x & it & E & R). change (zdrop (-1 + 1) VL) with VL in R. 
    destruct (hashlist_bucket_next h (-1)) as [[b bp]| |]; [|discriminate|discriminate]. cbn [bind] in *. exists x, it. auto.
  - replace (nb <=? b) with false by lia. replace (b =? -1) with false by lia. rewrite (zread_eq _ b None) by lia. rewrite El. cbn [bind].
    pose proof (HB b ltac:(lia)) as B. rewrite El in B. destruct B as (I & E1 & _).
    assert (Bd : zlen (znth [] VL b) < 2 ^ 64 - 1).
    { clear - I Hlim. pose proof (i_cnt _ _ _ I). destruct I. lia. }
    rewrite (i_cnt _ _ _ I), u64_id by lia. destruct (zlen (znth [] VL b) <=? p + 1) eqn:E.
    + assert (E2 : zdrop (p + 1) (znth [] VL b) = []). { unfold zdrop. apply skipn_all2. unfold zlen in *. lia. }
      rewrite E2. cbn [app].
      destruct (enter b ltac:(lia)) as (x & it & E' & R).
      destruct (hashlist_bucket_next h b) as [[bb bp]| |]; [|discriminate|discriminate]. cbn [bind] in *. exists x, it. auto.
    + cbn [bind]. rewrite (zread_eq _ b None) by lia. rewrite El. cbn [bind].
      destruct (get_item b l (p + 1) ltac:(lia) El ltac:(lia)) as (off & -> & ->). cbn [bind].
      eexists _, _. split; [reflexivity|]. rewrite (zdrop_cons [] (p + 1)) by lia. cbn [app]. split; [reflexivity|].
      apply (AtIn b (p + 1) l); auto. lia.
  - replace (nb <=? nb) with true by lia. eexists _, _. split; [reflexivity|]. split; [reflexivity|]. constructor.
Qed.
Lemma calls_ok : forall n it rest, at_ it rest ->
  calls n h it = Ret (firstn n (map Some rest ++ repeat None n)).
Proof.
  induction n as [|n IH]; intros it rest A; [reflexivity|].
  cbn [calls]. destruct (next_ok it rest A) as (x & it' & -> & R). cbn [bind]. destruct rest as [|y r]; destruct R as [-> A'].
  - rewrite (IH it' [] A'). cbn [bind map app repeat firstn]. reflexivity.
  - rewrite (IH it' r A'). cbn [bind map app repeat firstn]. f_equal. f_equal.
    rewrite !firstn_app. f_equal. destruct (Nat.le_gt_cases n (length (map (@Some (list Z)) r))) as [Q|Q].
    + replace (n - _)%nat with O by lia. reflexivity.
    + replace (None :: repeat None n) with (repeat (@None (list Z)) (S n)) by reflexivity.
      rewrite !firstn_repeat. f_equal. lia.
Qed.
End IT.

Lemma iter_main nb dsz l n : 1 <= nb < 2 ^ 32 -> 1 <= dsz -> Forall (hadd_ok dsz) l -> (zlen l + 8) * dsz < 2 ^ 64 -> zlen l < 2 ^ 63 -> Forall hadd_mem l ->
  exists ds rs h, adds_run (hashlist_new nb dsz) l = Ret (ds, rs, h) /\ ds = map (fun a => (snd (fst a), snd a)) l /\
    calls n h hashlist_iterator_init = Ret (firstn n (map Some (all_vals nb ds) ++ repeat None n)).
Proof.
  intros Hnb Hd F HM Hl FM. destruct (run_rep (zlen l + 8) dsz nb l (hashlist_new nb dsz) []) as (ds & rs & h & E & R & M); auto; [apply new_rep; lia|lia|change (zlen []) with 0; lia|].
  cbn [app] in R. destruct (M FM) as (D & _ & HF). exists ds, rs, h. split; [exact E|]. split; [exact D|].
  destruct R as (L & Dz & R). set (VL := map (fun b => bucket_vals nb (Z.of_nat b) ds) (seq 0 (Z.to_nat nb))).
  assert (LV : zlen VL = nb). { unfold VL, zlen. rewrite map_length, seq_length. lia. }
  assert (NV : forall b, 0 <= b < nb -> znth [] VL b = bucket_vals nb b ds).
  { intros b Hb. unfold znth, VL. rewrite (nth_indep _ [] (bucket_vals nb (Z.of_nat 0) ds)) by (rewrite map_length, seq_length; lia).
    rewrite (map_nth (fun b => bucket_vals nb (Z.of_nat b) ds)), seq_nth by lia. f_equal. lia. }
  unfold all_vals. rewrite flat_map_concat_map. fold VL.
  apply (calls_ok (zlen l + 8) dsz nb h VL); auto; try lia.
  - intros b Hb. rewrite NV by lia. apply R. exact Hb.
  - apply HF. apply new_full. lia.
  - constructor.
Qed.
