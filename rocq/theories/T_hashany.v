(** C18 with failing allocations: what an iteration over a hashlist yields after any additions. *)
From Verif Require Import Base M_sblist D_sblist P_sblist P_hbmap M_hashlist S_hashlist D_hashlist P_hashlist.

(** the additions with their results: (hash, value, result), result 0 = stored, -1 = no memory for the
    bucket, 1 = no memory inside of the bucket *)
Definition addlog := list (Z * list Z * Z).
Definition stored (log : addlog) : list (Z * list Z) := map fst (filter (fun x => snd x =? 0) log).
(** what an iteration yields for bucket b: its values; or one NULL, if it was made but got none *)
Definition bucket_calls (nb : Z) (log : addlog) (b : Z) : list (option (list Z)) :=
  match bucket_vals nb b (stored log) with
  | [] => if existsb (fun x => (fst (fst x) mod nb =? b mod nb) && negb (snd x =? -1)) log then [None] else []
  | vs => map Some vs
  end.
Definition log_of (l : list hadd) (rs : list Z) : addlog := map (fun p => (snd (fst (fst p)), snd (fst p), snd p)) (combine l rs).

Section IT.
Variable lim dsz nb : Z.
Variable h : hashlist.
Variable V : Z -> list (list Z).
Variable W : list (list (option (list Z))).
Hypothesis Hnb : 1 <= nb < 2 ^ 32.
Hypothesis HM : lim * dsz < 2 ^ 64.
Hypothesis HL : zlen (hbuckets h) = nb.
Hypothesis HV : zlen W = nb.
Hypothesis HB : forall b, 0 <= b < nb -> brep lim dsz (znth None (hbuckets h) b) (V b).
Hypothesis HW : forall b, 0 <= b < nb -> znth [] W b = match znth None (hbuckets h) b with None => [] | Some _ => match V b with [] => [None] | vs => map Some vs end end.
Hypothesis Hlim : lim < 2 ^ 64 - 1.

Lemma scan_any : forall fuel b, 0 <= b <= nb -> (Z.to_nat (nb - b) < fuel)%nat ->
  exists b', bucket_scan fuel (hbuckets h) b = Ret b' /\ b <= b' <= nb /\ concat (zdrop b W) = concat (zdrop b' W) /\
    (b' < nb -> exists l, znth None (hbuckets h) b' = Some l).
Proof using All.
  induction fuel as [|fuel IH]; intros b Hb Hf; [lia|].
  cbn [bucket_scan]. rewrite HL, u64_id by lia. destruct (b <? nb) eqn:E.
  - rewrite (zread_eq _ b None) by lia. cbn [bind]. destruct (znth None (hbuckets h) b) as [l|] eqn:Eb.
    + exists b. split; [reflexivity|]. split; [lia|]. split; [reflexivity|]. eauto.
    + destruct (IH (b + 1)) as (b' & -> & H1 & H2 & H3); [lia..|]. exists b'. split; [reflexivity|]. split; [lia|]. split; [|exact H3].
      rewrite (zdrop_cons [] b) by lia. cbn [concat]. rewrite HW, Eb by lia. exact H2.
  - exists b. split; [reflexivity|]. split; [lia|]. split; [reflexivity|]. lia.
Qed.
Inductive at2 : hiter -> list (option (list Z)) -> Prop :=
| A2fresh : at2 hashlist_iterator_init (concat W)
| A2in b p l : 0 <= b < nb -> znth None (hbuckets h) b = Some l -> 0 <= p < zlen (znth [] W b) ->
    at2 (mkHi p b) (zdrop (p + 1) (znth [] W b) ++ concat (zdrop (b + 1) W))
| A2end p : at2 (mkHi p nb) [].
Lemma item_any b l p : 0 <= b < nb -> znth None (hbuckets h) b = Some l -> 0 <= p < zlen (V b) ->
  exists off, sblist_get l p = Some off /\ zreads (mem l) off (isz l) = Ret (znth [] (V b) p).
Proof using All.
  intros Hb Eb Hp. specialize (HB b Hb). rewrite Eb in HB. destruct HB as (I & E1 & _).
  destruct (inv_reads _ _ _ I ltac:(rewrite E1; lia)) as (_ & R & _). apply R. exact Hp.
Qed.
Lemma vlen b l : 0 <= b < nb -> znth None (hbuckets h) b = Some l -> cnt l = zlen (V b) /\ zlen (V b) < 2 ^ 64 - 1 /\ zlen (znth [] W b) = Z.max 1 (zlen (V b)).
Proof using All.
  intros Hb Eb. pose proof (HB b Hb) as B. rewrite Eb in B. destruct B as (I & E1 & _). pose proof (i_cnt _ _ _ I) as C. split; [exact C|]. split; [destruct I; lia|]. rewrite HW, Eb by lia. destruct (V b) as [|x r] eqn:Ev; [reflexivity|]. rewrite zlen_map, zlen_cons. pose proof (zlen_nonneg r). lia.
Qed.
Lemma advance_any b0 : -1 <= b0 < nb -> exists b', hashlist_bucket_next h b0 = Ret ((if b' <? nb then znth None (hbuckets h) b' else None), b') /\
  b0 < b' <= nb /\ concat (zdrop (b0 + 1) W) = concat (zdrop b' W) /\ (b' < nb -> exists l, znth None (hbuckets h) b' = Some l).
Proof using All.
  intros Hb. unfold hashlist_bucket_next. destruct (scan_any (S (length (hbuckets h))) (b0 + 1)) as (b' & -> & H1 & H2 & H3); [lia|unfold zlen in *; lia|].
  cbn [bind]. rewrite HL, u64_id by lia. exists b'. split; [|split; [lia|auto]].
  destruct (b' <? nb) eqn:E; [|reflexivity]. rewrite (zread_eq _ _ None) by lia. reflexivity.
Qed.
Lemma enter_any b0 : -1 <= b0 < nb ->
  exists x it, (let* (b, bpos) := hashlist_bucket_next h b0 in
     let* (stop, pos, bpos) := Ret (match b with None => true | Some _ => false end, 0, bpos) in
     if stop : bool then Ret (None, mkHi pos bpos)
     else let* b := zread (hbuckets h) bpos in
          match b with
          | None => UB
          | Some l => match sblist_get l pos with
                      | None => Ret (None, mkHi pos bpos)
                      | Some off => let* x := zreads (mem l) off (isz l) in Ret (Some x, mkHi pos bpos)
                      end
          end) = Ret (x, it) /\
   match concat (zdrop (b0 + 1) W) with [] => x = None /\ at2 it [] | y :: r => x = y /\ at2 it r end.
Proof using All.
  intros Hb. destruct (advance_any b0 Hb) as (b' & -> & H1 & H2 & H3). cbn [bind]. rewrite H2. destruct (b' <? nb) eqn:E.
  - destruct (H3 ltac:(lia)) as (l & El). rewrite El. cbn [bind]. rewrite (zread_eq _ _ None) by lia. rewrite El. cbn [bind].
    destruct (vlen b' l ltac:(lia) El) as (C & Bd & LW). rewrite (zdrop_cons [] b') by lia. cbn [concat].
    pose proof (A2in b' 0 l ltac:(lia) El ltac:(lia)) as A. rewrite HW, El in A |- * by lia. destruct (V b') as [|y r] eqn:Ev.
    + replace (sblist_get l 0) with (@None Z) by (unfold sblist_get; rewrite C; reflexivity). cbn [app]. eexists _, _. split; [reflexivity|]. split; [reflexivity|]. exact A.
    + destruct (item_any b' l 0 ltac:(lia) El) as (off & -> & ->); [rewrite Ev, zlen_cons; pose proof (zlen_nonneg r); lia|]. cbn [bind]. eexists _, _. split; [reflexivity|]. rewrite Ev. cbn [map app]. rewrite znth_cons0. split; [reflexivity|]. exact A.
  - cbn [bind]. eexists _, _. split; [reflexivity|]. assert (b' = nb) by lia. subst b'. unfold zdrop at 1. rewrite skipn_all2 by (unfold zlen in *; lia). cbn [concat].
    split; [reflexivity|]. constructor.
Qed.
Lemma next_any it rest : at2 it rest -> exists x it', hashlist_next h it = Ret (x, it') /\
  match rest with [] => x = None /\ at2 it' [] | y :: r => x = y /\ at2 it' r end.
Proof using All.
  intros A. unfold hashlist_next. rewrite HL. destruct A as [|b p l Hb El Hp|p]; cbn [hbpos hpos].
  - replace (nb <=? -1) with false by lia. cbn [hashlist_iterator_init hbpos hpos]. replace (nb <=? -1) with false by lia.
    cbn [Z.eqb]. change (-1 =? -1) with true. cbn [bind].
    destruct (enter_any (-1) ltac:(lia)) as (x & it & E & R). change (zdrop (-1 + 1) W) with W in R.
    destruct (hashlist_bucket_next h (-1)) as [[b bp]| |]; [|discriminate|discriminate]. cbn [bind] in *. exists x, it. auto.
  - replace (nb <=? b) with false by lia. replace (b =? -1) with false by lia. rewrite (zread_eq _ b None) by lia. rewrite El. cbn [bind].
    destruct (vlen b l Hb El) as (C & Bd & LW). rewrite C, u64_id by lia. destruct (zlen (V b) <=? p + 1) eqn:E.
    + assert (E2 : zdrop (p + 1) (znth [] W b) = []). { unfold zdrop. apply skipn_all2. unfold zlen in *. lia. }
      rewrite E2. cbn [app].
      destruct (enter_any b ltac:(lia)) as (x & it & E' & R).
      destruct (hashlist_bucket_next h b) as [[bb bp]| |]; [|discriminate|discriminate]. cbn [bind] in *. exists x, it. auto.
    + cbn [bind]. rewrite (zread_eq _ b None) by lia. rewrite El. cbn [bind].
      destruct (item_any b l (p + 1) ltac:(lia) El ltac:(lia)) as (off & -> & ->). cbn [bind].
      eexists _, _. split; [reflexivity|]. rewrite (zdrop_cons None (p + 1)) by lia. cbn [app]. split.
      * rewrite HW, El by lia. destruct (V b) as [|y r] eqn:Ev; [change (zlen (@nil (list Z))) with 0 in E; lia|]. symmetry. unfold znth. rewrite (nth_indep _ None (Some [])) by (rewrite map_length; unfold zlen in *; lia). apply (map_nth Some).
      * apply (A2in b (p + 1) l); auto. lia.
  - replace (nb <=? nb) with true by lia. eexists _, _. split; [reflexivity|]. split; [reflexivity|]. constructor.
Qed.
Lemma calls_any : forall n it rest, at2 it rest -> calls n h it = Ret (firstn n (rest ++ repeat None n)).
Proof using All.
  induction n as [|n IH]; intros it rest A; [reflexivity|].
  cbn [calls]. destruct (next_any it rest A) as (x & it' & -> & R). cbn [bind]. destruct rest as [|y r]; destruct R as [-> A'].
  - rewrite (IH it' [] A'). cbn [bind app repeat firstn]. reflexivity.
  - rewrite (IH it' r A'). cbn [bind app repeat firstn]. f_equal. f_equal.
    rewrite !firstn_app. f_equal. destruct (Nat.le_gt_cases n (length r)) as [Q|Q].
    + replace (n - _)%nat with O by lia. reflexivity.
    + replace (None :: repeat None n) with (repeat (@None (list Z)) (S n)) by reflexivity.
      rewrite !firstn_repeat. f_equal. lia.
Qed.
End IT.
(** which buckets exist *)
Lemma add_made nw al h hash v r h' : hashlist_add nw al h hash v = Ret (r, h') -> 1 <= zlen (hbuckets h) ->
  zlen (hbuckets h') = zlen (hbuckets h) /\ (r = -1 \/ r = 0 \/ r = 1) /\
  forall b, 0 <= b < zlen (hbuckets h) -> (znth None (hbuckets h') b = None <-> znth None (hbuckets h) b = None /\ (hash mod zlen (hbuckets h) = b -> r = -1)).
Proof.
  intros E Hn. unfold hashlist_add in E. replace (zlen (hbuckets h) =? 0) with false in E by lia.
  assert (Hb : 0 <= hash mod zlen (hbuckets h) < zlen (hbuckets h)) by (apply Z.mod_pos_bound; lia).
  set (k := hash mod zlen (hbuckets h)) in *. rewrite (zread_eq _ k None) in E by lia. cbn [bind] in E.
  assert (X : exists ob, match znth None (hbuckets h) k with
              | Some l => Ret (Some l)
              | None => if nw then let* l := sblist_init (hdatasize h) 8 in Ret (Some l) else Ret None
              end = Ret ob /\ (ob = None -> znth None (hbuckets h) k = None)).
  { destruct (znth None (hbuckets h) k) as [l|]; [exists (Some l); split; [reflexivity|discriminate]|]. destruct nw; [|exists None; auto]. destruct (sblist_init _ _) as [l| |]; cbn [bind] in E |- *; [exists (Some l); split; [reflexivity|discriminate]|discriminate..]. }
  destruct X as (ob & EO & HO). rewrite EO in E. cbn [bind] in E. destruct ob as [l|].
  - destruct (sblist_add al l v) as [[r0 l']| |]; cbn [bind] in E; try discriminate. destruct (zupd (hbuckets h) k (Some l')) as (bs & EW & Lb & Rb1 & Rb2); [lia|]. rewrite EW in E. cbn [bind] in E. injection E as <- <-. cbn [hbuckets]. split; [lia|]. split; [destruct (r0 =? 0); auto|].
    intros b B. destruct (Z.eq_dec b k) as [->|N].
    + rewrite (zread_eq bs k None) in Rb1 by lia. injection Rb1 as ->. split; [discriminate|]. intros [_ Q]. specialize (Q eq_refl). destruct (r0 =? 0); lia.
    + specialize (Rb2 b N). rewrite !(zread_eq _ b None) in Rb2 by lia. injection Rb2 as ->. split; [intros ->; split; [reflexivity|lia]|tauto].
  - injection E as <- <-. split; [reflexivity|]. split; [auto|]. intros b B. tauto.
Qed.
Lemma run_made : forall l h ds rs h', adds_run h l = Ret (ds, rs, h') -> 1 <= zlen (hbuckets h) ->
  zlen (hbuckets h') = zlen (hbuckets h) /\ length rs = length l /\ ds = stored (log_of l rs) /\ Forall (fun r => r = -1 \/ r = 0 \/ r = 1) rs /\
  forall b, 0 <= b < zlen (hbuckets h) -> (znth None (hbuckets h') b = None <->
    znth None (hbuckets h) b = None /\ existsb (fun x => (fst (fst x) mod zlen (hbuckets h) =? b mod zlen (hbuckets h)) && negb (snd x =? -1)) (log_of l rs) = false).
Proof.
  induction l as [|[[[nw al] hash] v] l IH]; intros h ds rs h' E Hn; cbn [adds_run] in E.
  - injection E as <- <- <-. split; [reflexivity|]. split; [reflexivity|]. split; [reflexivity|]. split; [constructor|]. intros b B. cbn. tauto.
  - destruct (hashlist_add nw al h hash v) as [[r h1]| |] eqn:EA; cbn [bind] in E; try discriminate. destruct (adds_run h1 l) as [[[ds1 rs1] h2]| |] eqn:ER; cbn [bind] in E; try discriminate. injection E as <- <- <-.
    destruct (add_made _ _ _ _ _ _ _ EA Hn) as (L1 & R1 & M1). destruct (IH h1 _ _ _ ER ltac:(lia)) as (L2 & LR & D2 & R2 & M2). split; [lia|]. split; [cbn; lia|].
    split; [unfold stored, log_of; cbn [combine map filter fst snd]; destruct (r =? 0); cbn [map fst]; rewrite D2; reflexivity|]. split; [constructor; auto|]. intros b B. rewrite M2, M1 by lia. rewrite L1. unfold log_of. cbn [combine map existsb fst snd]. fold (log_of l rs1). rewrite orb_false_iff. rewrite (Z.mod_small b) by lia.
    destruct (Z.eqb_spec (hash mod zlen (hbuckets h)) b) as [Q|Q]; cbn [andb].
    + rewrite negb_false_iff, Z.eqb_eq. tauto.
    + tauto.
Qed.
(** C18: whatever allocations fail, the calls of hashlist_next yield the values bucket by bucket, with one
    NULL for each bucket that was made but got no value, then NULL for ever: the first n calls, for every n *)
Theorem c18_iteration_any : forall nb dsz l n, 1 <= nb < 2 ^ 32 -> 1 <= dsz -> Forall (hadd_ok dsz) l -> (zlen l + 8) * dsz < 2 ^ 64 -> zlen l < 2 ^ 63 ->
  exists ds rs h, adds_run (hashlist_new nb dsz) l = Ret (ds, rs, h) /\ length rs = length l /\ ds = stored (log_of l rs) /\ Forall (fun r => r = -1 \/ r = 0 \/ r = 1) rs /\
    calls n h hashlist_iterator_init = Ret (firstn n (flat_map (fun b => bucket_calls nb (log_of l rs) (Z.of_nat b)) (seq 0 (Z.to_nat nb)) ++ repeat None n)).
Proof.
  intros nb dsz l n Hnb Hd F HM Hl. destruct (run_rep (zlen l + 8) dsz nb l (hashlist_new nb dsz) []) as (ds & rs & h & E & R & _); auto; [apply new_rep; lia|lia|change (zlen []) with 0; lia|].
  cbn [app] in R. assert (L0 : zlen (hbuckets (hashlist_new nb dsz)) = nb) by (cbn [hashlist_new hbuckets]; apply zlen_zrepeat; lia).
  destruct (run_made _ _ _ _ _ E ltac:(lia)) as (_ & LR & D & RR & M). rewrite L0 in M. exists ds, rs, h. split; [exact E|]. split; [exact LR|]. split; [exact D|]. split; [exact RR|].
  destruct R as (L & Dz & R). set (W := map (fun b => bucket_calls nb (log_of l rs) (Z.of_nat b)) (seq 0 (Z.to_nat nb))).
  assert (LV : zlen W = nb). { unfold W, zlen. rewrite map_length, seq_length. lia. }
  assert (NV : forall b, 0 <= b < nb -> znth [] W b = bucket_calls nb (log_of l rs) b).
  { intros b Hb. unfold znth, W. rewrite (nth_indep _ [] (bucket_calls nb (log_of l rs) (Z.of_nat 0))) by (rewrite map_length, seq_length; lia).
    rewrite (map_nth (fun b => bucket_calls nb (log_of l rs) (Z.of_nat b))), seq_nth by lia. f_equal. lia. }
  rewrite flat_map_concat_map. fold W.
  apply (calls_any (zlen l + 8) dsz nb h (fun b => bucket_vals nb b ds) W); auto; try lia.
  - intros b Hb. rewrite NV by lia. specialize (M b Hb). assert (N0 : znth None (hbuckets (hashlist_new nb dsz)) b = None) by (cbn [hashlist_new hbuckets]; apply znth_zrepeat; lia). specialize (R b Hb). unfold bucket_calls. rewrite <- D. destruct (znth None (hbuckets h) b) as [s|] eqn:Eb.
    + destruct (bucket_vals nb b ds) as [|x r]; [|reflexivity]. destruct (existsb _ (log_of l rs)) eqn:EX; [reflexivity|]. assert (Some s = None) by (apply M; auto). discriminate.
    + cbn [brep] in R. rewrite R. destruct M as [M _]. destruct (M eq_refl) as [_ EX]. now rewrite EX.
  - constructor.
Qed.
Print Assumptions c18_iteration_any.
(** C18: so every stored value comes, once and in order, among the first calls *)
Theorem c18_none_lost : forall nb dsz l n, 1 <= nb < 2 ^ 32 -> 1 <= dsz -> Forall (hadd_ok dsz) l -> (zlen l + 8) * dsz < 2 ^ 64 -> zlen l < 2 ^ 63 -> zlen l <= Z.of_nat n ->
  exists ds rs h xs, adds_run (hashlist_new nb dsz) l = Ret (ds, rs, h) /\
    calls n h hashlist_iterator_init = Ret xs /\ flat_map (fun x => match x with Some v => [v] | None => [] end) xs = all_vals nb ds.
Proof.
  intros nb dsz l n Hnb Hd F HM Hl Hn. destruct (c18_iteration_any nb dsz l n Hnb Hd F HM Hl) as (ds & rs & h & E & LR & D & RR & C). exists ds, rs, h. eexists. split; [exact E|]. split; [exact C|].
  set (W := flat_map (fun b => bucket_calls nb (log_of l rs) (Z.of_nat b)) (seq 0 (Z.to_nat nb))).
  assert (LW : (length W <= n)%nat).
  { assert (LL : length (log_of l rs) = length l) by (unfold log_of; rewrite map_length, combine_length; lia). enough (length W <= length (log_of l rs))%nat by (unfold zlen in *; lia).
    assert (G : forall log, (length (flat_map (fun b => bucket_calls nb log (Z.of_nat b)) (seq 0 (Z.to_nat nb))) <= length log)%nat); [|apply G].
    clear - Hnb. intros log. assert (P : forall b, (length (bucket_calls nb log (Z.of_nat b)) <= length (filter (fun x => fst (fst x) mod nb =? Z.of_nat b mod nb)%Z log))%nat).
    { intros b. unfold bucket_calls. destruct (bucket_vals nb (Z.of_nat b) (stored log)) as [|x r] eqn:Ev.
      - destruct (existsb _ log) eqn:EX; [|cbn; lia]. apply existsb_exists in EX as (y & I & Q). apply andb_true_iff in Q as [Q _]. assert (I2 : In y (filter (fun x => fst (fst x) mod nb =? Z.of_nat b mod nb) log)) by (apply filter_In; auto). destruct (filter _ log); [destruct I2|cbn; lia].
      - rewrite map_length, <- Ev. unfold bucket_vals, stored. rewrite map_length. clear. induction log as [|[[k v] r] log IH]; [cbn; lia|]. cbn [filter fst snd]. destruct (r =? 0); cbn [map filter fst snd]; destruct (k mod nb =? Z.of_nat b mod nb); cbn [length]; lia. }
    assert (S1 : forall bs, (length (flat_map (fun b => bucket_calls nb log (Z.of_nat b)) bs) <= length (flat_map (fun b => filter (fun x => fst (fst x) mod nb =? Z.of_nat b mod nb)%Z log) bs))%nat).
    { induction bs as [|b bs IH]; [cbn; lia|]. cbn [flat_map]. rewrite !app_length. specialize (P b). lia. }
    eapply Nat.le_trans; [apply S1|]. clear S1 P. induction log as [|x log IH]; [clear; induction (seq 0 (Z.to_nat nb)) as [|b bs IH]; [cbn; lia|exact IH]|].
    assert (T : forall m a, (length (flat_map (fun b => filter (fun x => fst (fst x) mod nb =? Z.of_nat b mod nb)%Z (x :: log)) (seq a m)) <=
       (if (Z.of_nat a <=? fst (fst x) mod nb)%Z then 1 else 0) + length (flat_map (fun b => filter (fun x => fst (fst x) mod nb =? Z.of_nat b mod nb)%Z log) (seq a m)))%nat \/ nb < Z.of_nat a + Z.of_nat m).
    { induction m as [|m IHm]; intros a; [left; cbn; lia|]. destruct (IHm (S a)) as [H|H]; [|right; lia]. destruct (Z_lt_le_dec nb (Z.of_nat a + Z.of_nat (S m))) as [Q|Q]; [right; exact Q|]. left. cbn [seq flat_map]. rewrite !app_length. match type of H with (length ?A <= _ + length ?B)%nat => set (LA := length A) in *; set (LB := length B) in *; clearbody LA LB end. cbn [filter]. rewrite (Z.mod_small (Z.of_nat a) nb) by lia. destruct (Z.eqb_spec (fst (fst x) mod nb) (Z.of_nat a)) as [Y|Y].
      - replace (Z.of_nat (S a) <=? fst (fst x) mod nb) with false in H by lia. replace (Z.of_nat a <=? fst (fst x) mod nb) with true by lia. cbn [length]. lia.
      - destruct (Z.leb_spec (Z.of_nat (S a)) (fst (fst x) mod nb)); destruct (Z.leb_spec (Z.of_nat a) (fst (fst x) mod nb)); lia. }
    destruct (T (Z.to_nat nb) O) as [H|H]; [|lia]. cbn [length]. pose proof (Z.mod_pos_bound (fst (fst x)) nb ltac:(lia)). replace (Z.of_nat 0 <=? fst (fst x) mod nb) with true in H by lia. lia. }
  rewrite firstn_app, firstn_all2 by exact LW. rewrite flat_map_app. assert (RN : forall k, flat_map (fun x : option (list Z) => match x with Some v => [v] | None => [] end) (firstn k (repeat None n)) = []). { intros k. rewrite firstn_repeat. induction (min k n) as [|j IH]; [reflexivity|exact IH]. } rewrite RN, app_nil_r.
  unfold W, all_vals. rewrite D. generalize (seq 0 (Z.to_nat nb)) as bs. clear. induction bs as [|b bs IH]; [reflexivity|]. cbn [flat_map]. rewrite flat_map_app, IH. f_equal. unfold bucket_calls. destruct (bucket_vals nb (Z.of_nat b) (stored (log_of l rs))) as [|x r].
  - destruct (existsb _ _); reflexivity.
  - cbn [map flat_map app]. f_equal. induction r as [|y r IHr]; [reflexivity|]. cbn [map flat_map app]. now f_equal.
Qed.
Print Assumptions c18_none_lost.
Example c18_any_example : let j := Some (fun _ : Z => 7) in
  match adds_run (hashlist_new 4 1) [(true, None, 7, [1]); (true, j, 1, [2]); (false, j, 2, [3]); (true, j, 5, [4])] with
  | Ret (ds, rs, h) => rs = [1; 0; -1; 0] /\ ds = [(1, [2]); (5, [4])] /\ calls 5 h hashlist_iterator_init = Ret [Some [2]; Some [4]; None; None; None] /\
      map (bucket_calls 4 [(7, [1], 1); (1, [2], 0); (2, [3], -1); (5, [4], 0)]) [0; 1; 2; 3] = [[]; [Some [2]; Some [4]]; []; [None]]
  | _ => False
  end.
Proof. vm_compute. auto. Qed.
