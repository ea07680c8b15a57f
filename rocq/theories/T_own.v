From Verif Require Import Base M_heap S_heap P_heap M_own D_own P_own P_own2 M_ownmap D_ownmap P_ownmap M_ownfl P_ownfl.
From Coq Require Import Permutation.

(** ** C75: the life of an sblist, whatever is done with it and whichever allocations fail *)
Theorem c75_sblist_life A (ops : list (sop A)) h bi : sane h -> exists h', slife h bi ops = Ret h' /\ balanced h h'.
Proof. exact (slife_ok A ops h bi). Qed.
Theorem c75_sblist_static A (ops : list (sop A)) h bi : sane h -> exists h', slife_static h bi ops = Ret h' /\ balanced h h'.
Proof. exact (slife_static_ok A ops h bi). Qed.
(** while it lives it has the struct and at most one more block *)
Theorem c75_two_blocks A (ops : list (sop A)) h bi l h1 : sane h -> sb_new h bi = (Some l, h1) ->
  exists h' l', srun h1 l ops = Ret (h', l') /\ sane h' /\ Permutation (live h') (hself l' :: (if hbuf l' =? 0 then [] else [hbuf l']) ++ live h).
Proof.
  intros S E. destruct (sb_new_ok A h bi _ _ (owns_start _ S)) as (r & h1' & E' & R). rewrite E in E'. injection E' as <- <-. destruct R as (_ & _ & _ & N & R).
  destruct (srun_ok _ ops _ _ _ _ R) as (h2 & l2 & -> & [S2 P2] & H2). do 2 eexists. split; [reflexivity|]. split; [exact S2|]. unfold owned in P2. rewrite app_nil_r, nn1 in P2 by congruence. exact P2.
Qed.
Print Assumptions c75_sblist_life.
Print Assumptions c75_sblist_static.
Print Assumptions c75_two_blocks.
(* blockitems 1: the second addition finds no memory, the third does *)
Example c75_ex : slife (mkHeap [3; 1] 4 [true; true; false; true; true]) 1 [SAdd 5; SAdd 6; SAdd 7; SInsert 8 0; SPop; SClear; SAdd 1] = Ret (mkHeap [3; 1] 9 []).
Proof. reflexivity. Qed.

(** ** C76: the life of a hashlist *)
Theorem c76_hashlist_life A (xs : list (Z * A)) h n : sane h -> 0 < n -> exists h', hlife h n xs = Ret h' /\ balanced h h'.
Proof. exact (hlife_ok A xs h n). Qed.
Print Assumptions c76_hashlist_life.
(* the second allocation, that of the table, fails *)
Example c76_ex : hlife (mkHeap [3; 1] 4 [true; false]) 5 [(7, 9)] = Ret (mkHeap [3; 1] 5 []) /\
  (let* h := hlife (mkHeap [3; 1] 4 []) 5 [(7, 9); (2, 8); (3, 1)] in Ret (live h)) = Ret [3; 1].
Proof. split; vm_compute; reflexivity. Qed.

(** ** C77: stringptrlist_dup_entries, freestrings, freeall *)
(** dup_entries gives a copy of its own to the first k entries; all of them or the index of the first without one *)
Theorem c77_dup_entries h (l : hspl) own : owns h own (owned l) ->
  exists r h' l' ds, spl_dup_entries h l = (r, h', l') /\ owns h' own (ds ++ owned l') /\ owned l' = owned l /\
    map snd (hits l') = map snd (hits l) /\ map fst (hits l') = ds ++ zdrop (zlen ds) (map fst (hits l)) /\
    (r = -1 /\ zlen ds = zlen (hits l) \/ r = zlen ds /\ zlen ds < zlen (hits l)).
Proof.
  intros O. unfold spl_dup_entries. destruct (dup_loop_ok (hits l) h _ _ [] O) as (r & h' & ds & -> & L & O' & R). exists r, h', (with_items l (combine ds (map snd (hits l)) ++ zdrop (zlen ds) (hits l))), ds. split; [reflexivity|]. split; [exact O'|]. split; [reflexivity|]. cbn [hits with_items].
  assert (X : forall ds (xs : list (Z * Z)), zlen ds <= zlen xs -> map snd (combine ds (map snd xs) ++ zdrop (zlen ds) xs) = map snd xs /\ map fst (combine ds (map snd xs) ++ zdrop (zlen ds) xs) = ds ++ zdrop (zlen ds) (map fst xs)).
  { clear. intros ds. induction ds as [|d ds IH]; intros xs L; [cbn; auto|]. destruct xs as [|[p n] xs]; [zpos; cbn in L; zl; lia|]. assert (Y : forall B (y : B) (ys : list B), zdrop (zlen (d :: ds)) (y :: ys) = zdrop (zlen ds) ys). { intros. rewrite zlen_cons. zpos. unfold zdrop. replace (Z.to_nat (1 + zlen ds)) with (S (Z.to_nat (zlen ds))) by lia. reflexivity. }
    cbn [map combine app fst snd]. rewrite !Y. destruct (IH xs) as [A B]. { rewrite !zlen_cons in L. lia. } split; cbn [map app fst snd]; f_equal; auto. }
  destruct (X ds (hits l) L) as [A B]. split; [exact A|]. split; [exact B|]. change (zlen []) with 0 in R. lia.
Qed.
(** after it succeeded stringptrlist_freeall releases the copies and the list and nothing else, in particular not
    the strings that were copied *)
Theorem c77_dup_freeall h (l : hspl) base h' l' : owns h base (owned l) -> spl_dup_entries h l = (-1, h', l') ->
  exists h2, spl_freeall h' l' = Ret h2 /\ owns h2 base [].
Proof.
  intros O E. unfold spl_dup_entries in E. destruct (dup_loop_ok (hits l) h _ _ [] O) as (r & h1 & ds & E1 & L & O' & R). rewrite E1 in E. injection E as -> -> <-. change (zlen []) with 0 in R. zpos.
  assert (K : zlen ds = zlen (hits l)) by lia. apply spl_freeall_ok. cbn [hits with_items]. rewrite zdrop_all, app_nil_r by lia. rewrite nns_all.
  - rewrite app_nil_r. rewrite owned_with. exact O'.
  - intros p I. apply (owns_fresh _ _ _ _ O'). apply in_or_app. auto.
  - rewrite map_length. unfold zlen in K. lia.
Qed.
(** after a failure it is not: the remaining entries are the caller's strings *)
Theorem c77_failed_dup_refuted : exists h (l : hspl) h' l', owns h [4; 5] (owned l) /\ map fst (hits l) = [4; 5] /\ spl_dup_entries h l = (1, h', l') /\
  exists h2, spl_freeall h' l' = Ret h2 /\ live h2 = [4].
Proof.
  exists (mkHeap [1; 2; 4; 5] 6 [true; false]), (mkHsb 1 2 8 8 [(4, 1); (5, 1)]). do 2 eexists. split.
  { split; [split; [repeat constructor; cbn; lia|split; [repeat constructor; lia|cbn; lia]]|reflexivity]. }
  split; [reflexivity|]. split; [reflexivity|]. eexists. split; reflexivity.
Qed.
(** freestrings leaves NULL strings of size 0, so that a second call does nothing *)
Theorem c77_freestrings_twice h base (l : hspl) : owns h base (concat (map (fun x => nn (fst x)) (hits l)) ++ owned l) ->
  exists h' l', spl_freestrings h l = Ret (h', l') /\ owns h' base (owned l') /\ hits l' = repeat (0, 0) (length (hits l)) /\ spl_freestrings h' l' = Ret (h', l').
Proof.
  intros O. destruct (spl_freestrings_ok h base [] l) as (h' & l' & E & O' & W & I). { now rewrite app_nil_r. } exists h', l'. split; [exact E|]. rewrite app_nil_r in O'. split; [exact O'|]. split; [exact I|].
  unfold spl_freestrings. rewrite I. assert (X : forall n done, freestrings_loop h' done (repeat (0, 0) n) = Ret (h', done ++ repeat (0, 0) n)).
  { induction n as [|n IH]; intros done; cbn; [now rewrite app_nil_r|]. rewrite IH, <- app_assoc. reflexivity. }
  rewrite X. cbn [bind app]. destruct l'. cbn in *. unfold with_items. cbn. now rewrite I.
Qed.
(** a list made by stringptrlist_add_strdup: if no call failed, freeall releases everything *)
Theorem c77_add_strdup_partial h bi ns (l : hspl) h1 oks h2 l2 : sane h -> sb_new h bi = (Some l, h1) -> spl_adds h1 l ns = Ret (oks, h2, l2) ->
  Forall (fun b => b = true) oks -> map snd (hits l2) = ns /\ exists h3, spl_freeall h2 l2 = Ret h3 /\ balanced h h3.
Proof.
  intros S E A F. destruct (sb_new_ok (Z * Z) h bi _ _ (owns_start _ S)) as (r & h1' & E' & R). rewrite E in E'. injection E' as <- <-. destruct R as (_ & _ & I & _ & R).
  destruct (spl_adds_ok ns _ _ _ _ R) as (oks' & h2' & l2' & ps & leak & A' & L & _ & N & I2 & L2 & K & O). rewrite A in A'. injection A' as <- <- <-.
  assert (X : filter negb oks = [] /\ filter (fun b => b) oks = oks). { clear -F. induction F as [|b oks -> _ [IH1 IH2]]; cbn; auto. split; congruence. } destruct X as [X1 X2]. rewrite X1 in K. change (zlen []) with 0 in K. zpos. apply zlen_0 in K as ->; [|lia] || (assert (leak = []) as -> by (destruct leak; [reflexivity|rewrite zlen_cons in *; zpos; lia])).
  assert (Y : map snd (filter fst (combine oks ns)) = ns). { clear -F L. revert ns L. induction F as [|b oks -> _ IH]; intros [|n ns] L; cbn in *; try discriminate; auto. f_equal. apply IH. lia. }
  rewrite Y, I in I2. cbn [app] in I2. rewrite X2 in L2. split.
  - rewrite I2. clear -L L2. assert (length ps = length ns) by lia. clear L L2. revert ns H. induction ps as [|p ps IH]; intros [|n ns] H; cbn in *; try discriminate; auto. f_equal. apply IH. lia.
  - destruct (spl_freeall_ok h2 (live h) [] l2) as (h3 & E3 & O3). { rewrite I2, nns_all; [exact O|exact N|lia]. } exists h3. split; [exact E3|now apply owns_end].
Qed.
(** the copy is lost when the list cannot grow *)
Theorem c77_add_strdup_refuted : exists h (l : hspl) h1 h2 l2 h3, sane h /\ sb_new h 4 = (Some l, h1) /\ spl_adds h1 l [7] = Ret ([false], h2, l2) /\ hits l2 = [] /\
  spl_freeall h2 l2 = Ret h3 /\ live h = [] /\ live h3 <> [].
Proof.
  exists (mkHeap [] 1 [true; true; false]). do 5 eexists. split; [repeat constructor; cbn; lia|]. split; [reflexivity|]. split; [reflexivity|]. split; [reflexivity|]. split; [reflexivity|]. split; [reflexivity|]. discriminate.
Qed.
Print Assumptions c77_dup_entries.
Print Assumptions c77_dup_freeall.
Print Assumptions c77_failed_dup_refuted.
Print Assumptions c77_freestrings_twice.
Print Assumptions c77_add_strdup_partial.
Print Assumptions c77_add_strdup_refuted.
Example c77_ex : exists h' l', spl_dup_entries (mkHeap [1; 2] 3 []) (mkHsb 1 2 8 8 [(90, 1); (91, 5)]) = (-1, h', l') /\ hits l' = [(3, 1); (4, 5)] /\ live h' = [4; 3; 1; 2] /\
  exists h2, spl_freeall h' l' = Ret h2 /\ live h2 = [].
Proof. do 2 eexists. split; [reflexivity|]. split; [reflexivity|]. split; [reflexivity|]. eexists. split; reflexivity. Qed.

(** ** C78: stringlist.h *)
(** every string stringlist_add_dup reports as added is a block of its own, a failed call leaves no block behind *)
Theorem c78_add_dup h bi n (l : hsb Z) h1 : sane h -> sb_new h bi = (Some l, h1) ->
  exists rs h2 l2, sl_adds h1 l n = Ret (rs, h2, l2) /\ length rs = n /\ Forall (fun r => r = 0 \/ r = 1) rs /\ zlen (hits l2) = fold_right Z.add 0 rs /\ NoDup (hits l2) /\
    exists h3 h4, free_all h2 (hits l2) = Ret h3 /\ sb_free h3 l2 = Ret h4 /\ balanced h h4.
Proof.
  intros S E. destruct (sb_new_ok Z h bi _ _ (owns_start _ S)) as (r & h1' & E' & R). rewrite E in E'. injection E' as <- <-. destruct R as (_ & _ & I & _ & R).
  destruct (sl_adds_ok n h1 (live h) [] l) as (rs & h2 & l2 & -> & L & O & F & Z). { rewrite I. exact R. } exists rs, h2, l2. split; [reflexivity|]. split; [exact L|]. split; [exact F|]. rewrite I in Z. split; [exact Z|].
  split. { destruct O as [(N & _) P]. apply (Permutation_NoDup P) in N. rewrite <- !app_assoc in N. clear -N. induction (hits l2) as [|x xs IH]; [constructor|]. inversion N; subst. constructor; auto. intros I. apply H1. apply in_or_app. auto. }
  destruct (free_all_ok _ _ _ _ O) as (h3 & -> & O3). destruct (sb_free_ok _ _ _ _ _ O3) as (h4 & E4 & O4). exists h3, h4. split; [reflexivity|]. split; [exact E4|now apply owns_end].
Qed.
(** stringlist_foreach gives each string once, in order *)
Theorem c78_foreach (l : hsb Z) : sl_foreach (S (length (hits l))) l = Ret (hits l).
Proof.
  unfold sl_foreach. assert (X : (if zlen (hits l) =? 0 then NULL else sl_get l 0) = sl_get l 0). { destruct (Z.eqb_spec (zlen (hits l)) 0) as [E|]; [|reflexivity]. unfold sl_get. replace (0 <? zlen (hits l)) with false by lia. reflexivity. }
  rewrite X, sl_foreach_ok; [reflexivity|zlia|unfold zlen; lia].
Qed.
Print Assumptions c78_add_dup.
Print Assumptions c78_foreach.
Example c78_ex : exists l h1 h2 l2, sb_new (mkHeap [] 1 [true; true; true; true; false]) 1 = (Some l, h1) /\ sl_adds h1 l 2 = Ret ([1; 0], h2, l2) /\ hits l2 = [2] /\ live h2 = [3; 2; 1].
Proof. do 4 eexists. split; [reflexivity|]. split; [reflexivity|]. split; reflexivity. Qed.

(** ** C79: bmap and hbmap *)
(** bmap_fini releases the map's own memory and, as asked by the flags, each stored key and value *)
Theorem c79_bmap_fini h tgi ops flags : sane h ->
  exists h1 b, bruns h (bm_init tgi) ops = Ret (h1, b) /\
    forall rest, Permutation (live h) ((if Z.land flags 1 =? 0 then [] else stored_keys b) ++ (if Z.land flags 2 =? 0 then [] else stored_vals b) ++ rest) ->
    exists h2 b', bm_fini h1 b flags = Ret (h2, b') /\ sane h2 /\ Permutation (live h2) rest.
Proof.
  intros S. destruct (bruns_ok ops h (live h) [] (bm_init tgi)) as (h1 & b & E & O). { destruct tgi; apply (owns_start _ S). } exists h1, b. split; [exact E|]. intros rest P. rewrite app_nil_r in O.
  destruct (bm_fini_ok h1 rest [] b flags) as (h2 & b' & E2 & O2).
  - destruct O as [S1 P1]. split; [exact S1|]. rewrite P1, P. unfold asked. perm.
  - exists h2, b'. split; [exact E2|]. destruct O2 as [S2 P2]. auto.
Qed.
Theorem c79_hbmap_fini h tgi n ops flags : sane h -> 0 < n -> Forall (fun o => 0 <= fst o < n) ops ->
  exists h1 bs, hruns h (zrepeat (bm_init tgi) n) ops = Ret (h1, bs) /\
    forall rest, Permutation (live h) (concat (map (fun b => (if Z.land flags 1 =? 0 then [] else stored_keys b) ++ (if Z.land flags 2 =? 0 then [] else stored_vals b)) bs) ++ rest) ->
    exists h2 bs', hb_fini h1 bs flags = Ret (h2, bs') /\ sane h2 /\ Permutation (live h2) rest.
Proof.
  intros S N F. destruct (hruns_ok ops h (live h) (zrepeat (bm_init tgi) n)) as (h1 & bs & E & O & _).
  - eapply Forall_impl; [|exact F]. cbn. intros o B. rewrite zlen_zrepeat by lia. lia.
  - replace (hbown (zrepeat (bm_init tgi) n)) with (@nil Z); [now apply owns_start|]. unfold hbown, zrepeat. induction (Z.to_nat n); cbn; auto. rewrite <- IHn0. destruct tgi; reflexivity.
  - exists h1, bs. split; [exact E|]. intros rest P. destruct (hb_fini_ok bs flags h1 rest []) as (h2 & b' & E2 & O2).
    + destruct O as [S1 P1]. split; [exact S1|]. rewrite P1, P. change (fun b => _ ++ _) with (asked flags). perm.
    + exists h2, b'. split; [exact E2|]. destruct O2 as [S2 P2]. auto.
Qed.
(** with tgilist a deleted entry's value is freed too: freeing it when deleting frees it twice *)
Theorem c79_tgilist_deleted_refuted : exists h h1 h2 b b1, sane h /\ live h = [2; 1] /\ bruns h (bm_init true) [BNocheck 0 1 2] = Ret (h1, b) /\ bstep h1 b (BDelete 0) = Ret (h1, b1) /\ stored_keys b1 = [] /\
  hfree h1 2 = Ret h2 /\ bm_fini h2 b1 2 = UB /\
  exists b', bruns h (bm_init false) [BNocheck 0 1 2; BDelete 0] = Ret (mkHeap [4; 3; 2; 1] 5 [], b') /\ stored_vals b' = [].
Proof.
  exists (mkHeap [2; 1] 3 []). do 4 eexists. split. { split; [repeat constructor; cbn; lia|]. split; [repeat constructor; lia|cbn; lia]. }
  split; [reflexivity|]. split; [reflexivity|]. split; [reflexivity|]. split; [reflexivity|]. split; [reflexivity|]. split; [reflexivity|]. eexists. split; reflexivity.
Qed.
(** unlike sblist_free_items, bmap_fini must not be called twice *)
Theorem c79_fini_twice_refuted : exists h1 b h2 b2, bruns (mkHeap [] 1 []) (bm_init false) [BNocheck 0 1 2] = Ret (h1, b) /\ bm_fini h1 b 0 = Ret (h2, b2) /\ live h2 = [] /\ bm_fini h2 b2 0 = UB.
Proof. do 4 eexists. split; [reflexivity|]. split; [reflexivity|]. split; reflexivity. Qed.
(** tgilist_add: with either list full and no memory nothing is added *)
Theorem c79_tgilist_add h base i l x : owns h base ((nn (tbuf i) ++ nn (tbuf l))) ->
  exists ok h' i' l', tgi_add h i l x = Ret (ok, h', i', l') /\ owns h' base (nn (tbuf i') ++ nn (tbuf l')) /\
    zlen (tits l') = zlen (tits l) + (if ok then 1 else 0) /\ zlen (tits i') = zlen (tits i) + (if ok then 1 else 0).
Proof.
  intros O. destruct (tgi_add_ok h base [] i l x) as (ok & h' & i' & l' & E & O' & H). { now rewrite app_nil_r. } rewrite app_nil_r in O'. exists ok, h', i', l'. auto.
Qed.
Print Assumptions c79_bmap_fini.
Print Assumptions c79_hbmap_fini.
Print Assumptions c79_tgilist_deleted_refuted.
Print Assumptions c79_fini_twice_refuted.
Print Assumptions c79_tgilist_add.
Example c79_ex : exists h1 b h2 b2, bruns (mkHeap [9; 1; 2; 3; 4] 10 []) (bm_init false) [BNocheck 0 1 2; BNocheck 1 3 4] = Ret (h1, b) /\ stored_keys b = [1; 3] /\ stored_vals b = [2; 4] /\ bm_fini h1 b 3 = Ret (h2, b2) /\ live h2 = [9].
Proof. do 4 eexists. split; [reflexivity|]. split; [reflexivity|]. split; [reflexivity|]. split; reflexivity. Qed.

(** ** C80: stringptr_replace and filelist_search *)
(** stringptr_replace frees nothing twice, but leaves behind up to two blocks besides the result *)
Theorem c80_replace_partial h n : sane h -> exists r h' leak, h_replace h n = Ret (r, h') /\ sane h' /\ Permutation (live h') ((if r =? 0 then [] else [r]) ++ leak ++ live h) /\ zlen leak <= 2 /\ (r <> 0 -> zlen leak <= 1).
Proof.
  intros S. destruct (h_replace_ok h n _ (owns_start _ S)) as (r & h' & leak & E & [S' P] & L1 & L2). exists r, h', leak. split; [exact E|]. split; [exact S'|]. split; [|auto]. rewrite P. unfold nn. rewrite <- app_assoc. reflexivity.
Qed.
(** with enough memory it always leaks one *)
Theorem c80_replace_leaks_refuted h n : sane h -> script h = [] -> (0 < n)%nat -> exists r b h', h_replace h n = Ret (r, h') /\ r <> 0 /\ b <> 0 /\ Permutation (live h') (r :: b :: live h).
Proof.
  intros S E N. destruct (h_replace_leak h n _ (owns_start _ S) E N) as (r & b & h' & X & R & B & [_ P]). exists r, b, h'. auto.
Qed.
(** filelist_search followed by filelist_free is balanced if it succeeds or fails before anything is listed *)
Theorem c80_filelist_partial h dots fs r h1 f : sane h -> fl_search h dots fs = Ret (r, h1, f) -> r = 0 \/ ffiles f = None -> exists h2, fl_free h1 f = Ret h2 /\ balanced h h2.
Proof.
  intros S E H. destruct (fl_search_ok h _ dots fs (owns_start _ S)) as (r' & h1' & f' & E' & R). rewrite E in E'. injection E' as <- <- <-.
  assert (X : owns h1 (live h) (flown f)).
  { destruct R as [[_ R]|[(_ & A & B & R)|(A & l' & B & _)]]; [exact R| |destruct H as [H|H]; [lia|congruence]]. unfold flown. now rewrite A, B. }
  destruct (fl_free_ok _ _ _ X) as (h2 & E2 & O2). exists h2. split; [exact E2|now apply owns_end].
Qed.
(** after a later failure the list's struct has been freed but not forgotten: filelist_free frees it again *)
Theorem c80_filelist_failed_refuted h dots fs r h1 f l : sane h -> fl_search h dots fs = Ret (r, h1, f) -> r = -1 -> ffiles f = Some l -> ~ In NoSlash fs -> ~ In (hself l) (live h) -> fl_free h1 f = UB.
Proof.
  intros S E R F N I. destruct (fl_search_ok h _ dots fs (owns_start _ S)) as (r' & h1' & f' & E' & X). rewrite E in E'. injection E' as <- <- <-.
  destruct X as [[X _]|[(_ & A & _)|(_ & l' & A & _ & B & D)]]; [lia|congruence|]. rewrite F in A. injection A as <-. destruct D as [[D _]|D]; [contradiction|]. now apply (fl_free_ub h1 (live h) f l).
Qed.
Print Assumptions c80_replace_partial.
Print Assumptions c80_replace_leaks_refuted.
Print Assumptions c80_filelist_partial.
Print Assumptions c80_filelist_failed_refuted.
Example c80_ex : (let* (r, h1, f) := fl_search (mkHeap [] 1 []) 2 [List; Skip; List] in let* h2 := fl_free h1 f in Ret (r, live h1, live h2)) = Ret (0, [4; 2; 1], []).
Proof. vm_compute. reflexivity. Qed.
Example c80_ex2 : (let* (r, h1, f) := fl_search (mkHeap [] 1 [true; true; false]) 0 [List] in Ret (r, live h1, fl_free h1 f)) = Ret (-1, [], UB).
Proof. vm_compute. reflexivity. Qed.
Example c80_ex3 : (let* (r, h1) := h_replace (mkHeap [7] 8 []) 2 in Ret (zlen (live h1))) = Ret 3.
Proof. vm_compute. reflexivity. Qed.
