(** Proofs about tglist_insert_sorted. *)
From Verif Require Import Base M_tglist S_tglist D_tglist P_tglist D_tgsort.
From Coq Require Import Permutation.

Lemma tsorted_app A (cmp : A -> A -> Z) p q : tsorted cmp (p ++ q) <-> tsorted cmp p /\ tsorted cmp q /\ forall x y, In x p -> In y q -> cmp x y <= 0.
Proof.
  induction p as [|a p IH]; cbn [app].
  - split; [intros H; repeat split; auto; [constructor|intros ? ? []]|tauto].
  - split.
    + intros H. inversion H as [|? ? F S]; subst. apply IH in S as (S1 & S2 & S3). apply Forall_app in F as [F1 F2]. split; [now constructor|]. split; [exact S2|]. intros x y [->|I] J; [rewrite Forall_forall in F2; auto|auto].
    + intros (S1 & S2 & S3). inversion S1; subst. constructor; [|apply IH; repeat split; auto; intros; apply S3; [right|]; auto]. apply Forall_app. split; [assumption|]. apply Forall_forall. intros y J. apply S3; [left; reflexivity|exact J].
Qed.
Lemma tsorted_nth A (cmp : A -> A -> Z) d xs : tsorted cmp xs -> forall i j, 0 <= i < j -> j < zlen xs -> cmp (znth d xs i) (znth d xs j) <= 0.
Proof.
  induction 1 as [|x l F S IH]; intros i j Hij Hj; [change (zlen []) with 0 in Hj; lia|]. rewrite zlen_cons in Hj. rewrite (znth_consS d x l j) by lia. destruct (Z.eq_dec i 0) as [->|].
  - rewrite znth_cons0. rewrite Forall_forall in F. apply F. apply znth_In. lia.
  - rewrite znth_consS by lia. apply IH; lia.
Qed.
Section S.
Context {A : Type}.
Variables (isz : Z) (cmp : A -> A -> Z).
Hypothesis Hisz : 1 <= isz.
Notation trep := (trep isz).
Lemma cmp_le (T : total_order cmp) x y : 0 <= cmp y x -> cmp x y <= 0.
Proof. intros H. destruct T as [Ha _]. destruct (Z_le_gt_dec (cmp x y) 0); [assumption|]. assert (cmp y x < 0) by (apply Ha; lia). lia. Qed.
Lemma tg_pos_ok d l xs o fuel : forall hi lo, trep l xs -> 0 <= hi <= lo -> lo < zlen xs -> lo - hi < Z.of_nat fuel ->
  exists r, tg_pos_loop fuel cmp l o hi lo = Ret r /\ 0 <= r <= zlen xs /\
   (total_order cmp -> tsorted cmp xs ->
    (forall i, 0 <= i < hi -> cmp (znth d xs i) o <= 0) ->
    (forall i, lo < i < zlen xs -> cmp o (znth d xs i) <= 0) ->
    (forall i, 0 <= i < r -> cmp (znth d xs i) o <= 0) /\
    (forall i, r <= i < zlen xs -> cmp o (znth d xs i) <= 0)).
Proof using Hisz.
  induction fuel as [|fuel IH]; intros hi lo T Hh Hlo Hf; [lia|]. cbn [tg_pos_loop]. pose proof (proj2 (trep_u64 isz Hisz _ _ T)) as HX. rewrite (u64_id (lo - hi)) by lia. rewrite u64_id by lia.
  set (c := hi + (lo - hi) / 2). assert (Hc : hi <= c <= lo) by lia. rewrite (get_znth isz l xs c d) by (auto; lia). cbn [bind]. destruct (hi =? lo) eqn:E.
  - replace c with lo in * by lia. destruct (0 <? cmp o (znth d xs lo)) eqn:R.
    + rewrite u64_id by lia. eexists; split; [reflexivity|]. split; [lia|]. intros HP HS H1 H2. split; intros i Hi; [|apply H2; lia]. destruct (Z.eq_dec i lo); [subst; apply cmp_le; auto; lia|]. apply H1; lia.
    + eexists; split; [reflexivity|]. split; [lia|]. intros HP HS H1 H2. split; intros i Hi; [apply H1; lia|]. destruct (Z.eq_dec i lo); [subst; lia|]. apply H2; lia.
  - assert (Hcl : c < lo) by lia. set (r := cmp o (znth d xs c)). destruct (r <? 0) eqn:R1; [|destruct (0 <? r) eqn:R2].
    + assert (UP : total_order cmp -> tsorted cmp xs -> forall i, c <= i < zlen xs -> cmp o (znth d xs i) <= 0).
      { intros HP HS i Hi. destruct (Z.eq_dec i c) as [->|]; [subst r; lia|]. destruct HP as [_ Ht]. apply (Ht _ (znth d xs c)); [subst r; lia|]. apply tsorted_nth; auto; lia. }
      destruct (c =? 0) eqn:C0.
      * assert (hi = 0) by lia. subst hi. change (0 <? 0) with false; cbv iota. destruct (IH 0 0 T) as [r' [-> [Hr HR]]]; try lia. eexists; split; [reflexivity|]. split; [lia|]. intros HP HS H1 H2. apply HR; auto. intros i Hi. apply UP; auto; lia.
      * rewrite (u64_id (c - 1)) by lia.
        assert (HQ : exists hi', (if c - 1 <? hi then c - 1 else hi) = hi' /\ 0 <= hi' <= hi /\ hi' <= c - 1 /\ (hi' = hi \/ hi' = c - 1)). { destruct (c - 1 <? hi) eqn:?; eexists; split; try reflexivity; lia. }
        destruct HQ as [hi' [-> HQ]]. destruct (IH hi' (c - 1) T) as [r' [-> [Hr HR]]]; try lia. eexists; split; [reflexivity|]. split; [lia|]. intros HP HS H1 H2. apply HR; auto; intros i Hi; [apply H1; lia|apply UP; auto; lia].
    + rewrite (u64_id (c + 1)) by lia. replace (lo <? c + 1) with false by lia. destruct (IH (c + 1) lo T) as [r' [-> [Hr HR]]]; try lia. eexists; split; [reflexivity|]. split; [lia|]. intros HP HS H1 H2. apply HR; auto. intros i Hi.
      destruct (Z.eq_dec i c) as [->|]; [apply cmp_le; auto; subst r; lia|]. pose proof (cmp_le HP (znth d xs c) o ltac:(subst r; lia)). destruct HP as [_ Ht]. apply (Ht _ (znth d xs c)); [|assumption]. apply tsorted_nth; auto; lia.
    + replace (c <? c) with false by lia. destruct (IH c c T) as [r' [-> [Hr HR]]]; try lia. eexists; split; [reflexivity|]. split; [lia|]. intros HP HS H1 H2. apply HR; auto.
      * intros i Hi. pose proof (cmp_le HP (znth d xs c) o ltac:(subst r; lia)). destruct HP as [_ Ht]. apply (Ht _ (znth d xs c)); [|assumption]. apply tsorted_nth; auto; lia.
      * intros i Hi. destruct HP as [_ Ht]. apply (Ht _ (znth d xs c)); [subst r; lia|]. apply tsorted_nth; auto; lia.
Qed.
Lemma insert_sorted_ok al l xs o : trep l xs -> (2 * zlen xs + 4) * isz < 2 ^ 64 ->
  exists r l', tglist_insert_sorted isz al cmp l o = Ret (r, l') /\
    (r = SIZE_MAX /\ l' = l /\ has_mem al = false \/
     exists p q, xs = p ++ q /\ r = zlen p /\ trep l' (p ++ o :: q) /\ (total_order cmp -> tsorted cmp xs -> tsorted cmp (p ++ o :: q))).
Proof using Hisz.
  intros T L. unfold tglist_insert_sorted, tglist_sorted_insert_pos_impl. rewrite (r_cnt _ _ _ T). pose proof (zlen_nonneg xs). assert (HX : zlen xs < 2 ^ 63) by nia.
  assert (exists pos, (if zlen xs =? 0 then Ret 0 else tg_pos_loop (S (Z.to_nat (zlen xs))) cmp l o 0 (u64 (zlen xs - 1))) = Ret pos /\ 0 <= pos <= zlen xs /\
    (total_order cmp -> tsorted cmp xs -> (forall i, 0 <= i < pos -> cmp (znth o xs i) o <= 0) /\ (forall i, pos <= i < zlen xs -> cmp o (znth o xs i) <= 0))) as (pos & -> & Hp & HP).
  { destruct (zlen xs =? 0) eqn:E; [eexists; split; [reflexivity|]; split; [lia|]; intros; split; intros; lia|]. rewrite u64_id by lia. destruct (tg_pos_ok o l xs o (S (Z.to_nat (zlen xs))) 0 (zlen xs - 1)) as (r & -> & Hr & HR); auto; try lia.
    eexists; split; [reflexivity|]. split; [lia|]. intros; apply HR; auto; intros; lia. }
  cbn [bind]. assert (NS : (pos =? SIZE_MAX) = false) by (apply Z.eqb_neq; unfold SIZE_MAX; lia). rewrite NS. destruct (zsplit pos xs) as (p & q & -> & Lp); [lia|].
  destruct (insert_ok isz Hisz al l p q o pos T L ltac:(lia)) as (r & l' & -> & [(-> & -> & M)|(-> & T')]); cbn [bind Z.eqb negb]; do 2 eexists; (split; [reflexivity|]); [left; auto|right]. exists p, q. split; [reflexivity|]. split; [lia|]. split; [exact T'|].
  intros TO TS. destruct (HP TO TS) as [H1 H2]. apply tsorted_app in TS as (S1 & S2 & S3). apply tsorted_app. split; [exact S1|]. split.
  - constructor; [|exact S2]. apply Forall_forall. intros x I. destruct (In_znth o _ _ I) as (i & Hi & <-). specialize (H2 (zlen p + i)). rewrite znth_app2 in H2 by lia. rewrite zlen_app in H2. replace (zlen p + i - zlen p) with i in H2 by lia. apply H2. lia.
  - intros x y I [<-|J]; [|auto]. destruct (In_znth o _ _ I) as (i & Hi & <-). specialize (H1 i). rewrite znth_app1 in H1 by lia. apply H1. lia.
Qed.
Lemma tsorts_ok h : forall l xs, trep l xs -> (2 * (zlen xs + zlen h) + 4) * isz < 2 ^ 64 -> total_order cmp -> tsorted cmp xs ->
  exists rs l' xs', tsorts isz cmp l h = Ret (rs, l') /\ trep l' xs' /\ tsorted cmp xs' /\ length rs = length h /\
    Forall2 (fun r x => r = SIZE_MAX -> has_mem (fst x) = false) rs h /\ Permutation xs' (map (fun rx => snd (snd rx)) (filter (fun rx => negb (fst rx =? SIZE_MAX)) (combine rs h)) ++ xs).
Proof using Hisz.
  induction h as [|[al x] h IH]; intros l xs T L TO S; cbn [tsorts].
  - exists [], l, xs. split; [reflexivity|]. split; [exact T|]. split; [exact S|]. split; [reflexivity|]. split; [constructor|reflexivity].
  - rewrite zlen_cons in L. pose proof (zlen_nonneg h). pose proof (zlen_nonneg xs). destruct (insert_sorted_ok al l xs x T ltac:(nia)) as (r & l1 & -> & [(-> & -> & M)|(p & q & -> & -> & T' & S')]); cbn [bind].
    + destruct (IH l xs T ltac:(nia) TO S) as (rs & l' & xs' & -> & T'' & S'' & Ln & F & P). cbn [bind]. exists (SIZE_MAX :: rs), l', xs'. split; [reflexivity|]. split; [exact T''|]. split; [exact S''|]. split; [cbn; lia|]. split; [constructor; auto|]. cbn [combine filter fst]. rewrite Z.eqb_refl. exact P.
    + rewrite zlen_app in L. destruct (IH l1 (p ++ x :: q) T') as (rs & l' & xs' & -> & T'' & S'' & Ln & F & P); [rewrite zlen_app, zlen_cons; nia|exact TO|auto|]. cbn [bind]. pose proof (zlen_nonneg p). pose proof (zlen_nonneg q). rewrite zlen_app in *. assert (N : zlen p <> SIZE_MAX) by (unfold SIZE_MAX; nia).
      exists (zlen p :: rs), l', xs'. split; [reflexivity|]. split; [exact T''|]. split; [exact S''|]. split; [cbn; lia|]. split; [constructor; [intros; contradiction|exact F]|]. cbn [combine filter fst]. replace (zlen p =? SIZE_MAX) with false by lia. cbn [negb map snd app]. rewrite P. rewrite <- Permutation_middle. rewrite <- Permutation_middle. reflexivity.
Qed.
End S.
