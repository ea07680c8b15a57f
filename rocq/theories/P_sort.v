(** Proofs about sblist_sort and tglist_sort. *)
From Verif Require Import Base M_sblist S_sblist D_sblist P_sblist M_tglist S_tglist D_tglist P_tglist D_tgsort P_tgsort M_sort.
From Coq Require Import Permutation.

Lemma elements_concat n xs rest : 0 <= n -> sized n xs -> elements (length xs) n (concat xs ++ rest) = xs.
Proof.
  intros Hn. revert rest. induction xs as [|x xs IH]; intros rest S; cbn [length elements concat]; [reflexivity|]. inversion S as [|? ? Lx Sx]; subst. unfold zlen in *. rewrite <- app_assoc. rewrite firstn_app, skipn_app. rewrite Nat2Z.id. rewrite firstn_all, skipn_all, Nat.sub_diag. cbn [firstn skipn app]. rewrite app_nil_r. rewrite Nat2Z.id in IH || idtac. f_equal. apply IH. exact Sx.
Qed.
Lemma sized_perm n xs ys : Permutation ys xs -> sized n xs -> sized n ys.
Proof. intros P S. unfold sized in *. rewrite Forall_forall in *. intros x I. apply S. eapply Permutation_in; eauto. Qed.
Lemma zlen_perm A (xs ys : list A) : Permutation ys xs -> zlen ys = zlen xs.
Proof. intros P. unfold zlen. now rewrite (Permutation_length P). Qed.
Lemma sort_inv qs lim l xs : Inv lim l xs -> Permutation (qs xs) xs -> 
  exists l', sblist_sort qs l = Ret l' /\ Inv lim l' (qs xs) /\ isz l' = isz l /\ bits l' = bits l /\ capa l' = capa l /\ zdrop (zlen xs * isz l) (mem l') = zdrop (zlen xs * isz l) (mem l).
Proof.
  intros I P. dinv I. pose proof (zlen_perm _ _ _ P) as LP. pose proof (sized_perm _ _ _ P Hsz) as SP. unfold sblist_sort. rewrite Hmem, Hcnt.
  pose proof (zlen_concat _ _ Hsz) as LC. pose proof (zlen_concat _ _ SP) as LC'. rewrite (zreads_at [] (concat xs) rest 0) by (rewrite ?LC; reflexivity). cbn [bind]. pose proof (elements_concat (isz l) xs [] ltac:(lia) Hsz) as E. rewrite app_nil_r in E. unfold zlen at 1. rewrite Nat2Z.id, E.
  pose proof (zwrites_at [] (concat xs) rest (concat (qs xs)) 0 eq_refl ltac:(nia)) as W. cbn [app] in W. rewrite W. cbn [bind]. eexists; split; [reflexivity|]. split; [|cbn [isz bits capa mem]; repeat split; rewrite !zdrop_app2 by nia; f_equal; nia].
  rewrite Hmem in Hcm, Hml. rewrite zlen_app in Hcm, Hml. constructor; cbn [isz bits cnt capa mem]; auto; try lia. exists rest. split; [reflexivity|rewrite zlen_app; nia]. rewrite zlen_app; nia.
Qed.
Lemma tsort_ok {A} isz (Hi : 1 <= isz) (qs : list A -> list A) l xs : trep isz l xs -> Permutation (qs xs) xs -> exists l', tglist_sort qs l = Ret l' /\ trep isz l' (qs xs).
Proof.
  intros [[junk M] C Ca Sz Pw] P. pose proof (zlen_perm _ _ _ P) as LP. unfold tglist_sort. rewrite M, C, zlen_app. pose proof (zlen_nonneg xs). pose proof (zlen_nonneg junk). replace (zlen xs <? 0) with false by lia. replace (zlen xs + zlen junk <? zlen xs) with false by lia. cbn [orb].
  eexists; split; [reflexivity|]. rewrite ztake_app1, ztake_all by lia. rewrite zdrop_app2 by lia. rewrite Z.sub_diag. replace (zdrop 0 junk) with junk by reflexivity.
  constructor; cbn [tmem tcnt tcapa]; auto; [eexists; reflexivity|]. rewrite <- Ca, M, !zlen_app. lia.
Qed.
Lemma lspec_run_len A rs (xs xs' : list A) : lspec_run xs rs xs' -> zlen xs' <= zlen xs + zlen rs.
Proof. induction 1; [zl; lia|]. pose proof (lspec_len _ _ _ _ _ H). zl. lia. Qed.
Lemma treads_unique A (l : tgl A) xs ys : treads l xs -> treads l ys -> xs = ys.
Proof.
  intros [C1 R1] [C2 R2]. destruct xs as [|x xs]; [destruct ys as [|y ys]; [reflexivity|change (zlen []) with 0 in C1; rewrite zlen_cons in C2; pose proof (zlen_nonneg ys); lia]|].
  apply (znth_ext x); [congruence|]. intros i Hi. pose proof (R1 i x Hi) as E1. pose proof (R2 i x ltac:(lia)) as E2. congruence.
Qed.
Lemma treached_rep A isz h (l : tgl A) xs : treached isz h l xs -> trep isz l xs /\ zlen xs <= zlen h.
Proof.
  intros (Hi & L & C & rs & R & S & T). destruct (trun_ok isz Hi h _ _ (init_trep isz) ltac:(cbn; exact L) C) as (rs' & l' & xs' & E & T' & S' & M). rewrite R in E. injection E as <- <-.
  assert (xs = xs') as <- by (eapply treads_unique; [exact T|apply (trep_reads isz _ _ T')]). split; [exact T'|]. apply lspec_run_len in S. change (zlen []) with 0 in S. assert (zlen rs = zlen h) by (rewrite <- (zlen_map fst rs), M, zlen_map; reflexivity). lia.
Qed.
Lemma treached_insert A isz h (l : tgl A) xs al cmp o : treached isz h l xs ->
  exists r l', tglist_insert_sorted isz al cmp l o = Ret (r, l') /\
    (r = SIZE_MAX /\ l' = l /\ has_mem al = false \/
     exists p q, xs = p ++ q /\ r = zlen p /\ treads l' (p ++ o :: q) /\ tcapa_ok l' /\ (total_order cmp -> tsorted cmp xs -> tsorted cmp (p ++ o :: q))).
Proof.
  intros R. pose proof R as (Hi & L & _). destruct (treached_rep _ _ _ _ _ R) as [T Ln]. destruct (P_tgsort.insert_sorted_ok isz cmp Hi al l xs o T ltac:(nia)) as (r & l' & E & [H|(p & q & Exs & Er & T' & S)]); exists r, l'; (split; [exact E|]); [auto|right]. exists p, q. split; [exact Exs|]. split; [exact Er|]. split; [apply (trep_reads isz _ _ T')|]. split; [apply (trep_capa isz _ _ T')|exact S].
Qed.
Lemma treached_sort A isz h (l : tgl A) xs qs : treached isz h l xs -> Permutation (qs xs) xs -> exists l', tglist_sort qs l = Ret l' /\ treads l' (qs xs) /\ tcapa_ok l'.
Proof.
  intros R P. pose proof R as (Hi & L & _). destruct (treached_rep _ _ _ _ _ R) as [T Ln]. destruct (tsort_ok isz Hi qs l xs T P) as (l' & E & T'). exists l'. split; [exact E|]. split; [apply (trep_reads isz _ _ T')|apply (trep_capa isz _ _ T')].
Qed.
Lemma tsorts_reads A isz cmp (h : list (talloc A * A)) : 1 <= isz -> (2 * zlen h + 4) * isz < 2 ^ 64 -> total_order cmp ->
  exists rs l xs, tsorts isz cmp tglist_init h = Ret (rs, l) /\ treads l xs /\ tcapa_ok l /\ tsorted cmp xs /\ length rs = length h /\
    Forall2 (fun r x => r = SIZE_MAX -> has_mem (fst x) = false) rs h /\
    Permutation xs (map (fun rx => snd (snd rx)) (filter (fun rx => negb (fst rx =? SIZE_MAX)) (combine rs h))).
Proof.
  intros Hi L TO. destruct (tsorts_ok isz cmp Hi h _ _ (init_trep isz) ltac:(cbn; exact L) TO (tsorted_nil _)) as (rs & l & xs & E & T & S & Ln & F & P). exists rs, l, xs. split; [exact E|]. split; [apply (trep_reads isz _ _ T)|]. split; [apply (trep_capa isz _ _ T)|]. rewrite app_nil_r in P. auto.
Qed.
Lemma reach_sort cmp itemsize blockitems h l xs qs : reachable itemsize blockitems h l xs -> Permutation (qs xs) xs ->
  exists l', sblist_sort qs l = Ret l' /\ reads_as l' (qs xs) /\ capa l' = capa l /\
    (forall it, exists r, sblist_bsearch cmp l' it = Ret r /\
      (0 <= r < zlen xs /\ cmp it (znth [] (qs xs) r) = 0 \/
       r = SIZE_MAX /\ (total_preorder cmp -> sorted cmp (qs xs) -> forall x, In x xs -> cmp it x <> 0))).
Proof.
  intros HR P. destruct (reachable_inv _ _ _ _ _ HR) as [lim [I [HB [HL Hi]]]]. destruct (sort_inv qs lim l xs I P) as (l' & E & I' & Is & Bs & Cs & _). exists l'. split; [exact E|]. split; [eapply inv_reads; eauto; rewrite Is; lia|]. split; [exact Cs|].
  intros it. destruct (bsearch_ok cmp lim l' (qs xs) it I') as (r & E' & H); [rewrite Is; lia|]. exists r. split; [exact E'|]. rewrite (zlen_perm _ _ _ P) in H. destruct H as [H|[H1 H2]]; [left; exact H|right]. split; [exact H1|]. intros TP S x Ix. apply H2; auto. eapply Permutation_in; [apply Permutation_sym, P|exact Ix].
Qed.
