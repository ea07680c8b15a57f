(** Proofs about examples/codedup.c: the search. *)
From Verif Require Import Base Cstr M_spfile M_tglist S_tglist D_tglist P_tglist D_tgsort P_tgsort M_codedup S_codedup.
From Coq Require Import Permutation.

Lemma streq_ok a b : streq a b = true <-> a = b.
Proof.
  revert b. induction a as [|x a IH]; destruct b as [|y b]; cbn [streq]; try (split; [discriminate|discriminate || congruence]); [tauto|]. rewrite andb_true_iff, IH, Z.eqb_eq. split; [intros [-> ->]; reflexivity|intros H; injection H; auto].
Qed.
Lemma cmp_total : total_order sortitem_cmp.
Proof.
  split; intros [a b] [c d]; unfold sortitem_cmp; cbn [fst snd].
  - destruct (c - a =? 0) eqn:E1, (a - c =? 0) eqn:E2; lia.
  - intros [e f]; cbn [fst snd]. destruct (c - a =? 0) eqn:E1, (e - c =? 0) eqn:E2, (e - a =? 0) eqn:E3; lia.
Qed.
Section S.
Variables (L : list (Z * list Z)) (bl : Z) (junk : Z -> Z * Z).
Notation lc := (zlen L).
Notation ls := (map snd L).
Hypothesis HL : lc < 2 ^ 31.
Hypothesis Hbl : 1 <= bl < 2 ^ 31.
Hypothesis HH : Forall (fun x => fst x = string_hash (snd x)) L.

Lemma leq_ok a b : 0 <= a < lc -> 0 <= b < lc -> exists e, leq L a b = Ret e /\ (e = true <-> znth [] ls a = znth [] ls b).
Proof using All.
  intros Ha Hb. unfold leq. rewrite (zread_ok (0, []) L a) by lia. cbn [bind]. rewrite (zread_ok (0, []) L b) by lia. cbn [bind]. eexists; split; [reflexivity|].
  assert (E : forall k, 0 <= k < lc -> znth [] ls k = snd (znth (0, []) L k)) by (intros k Hk; apply (znth_map snd (0, [])); lia).
  rewrite !E by lia. rewrite Forall_forall in HH. pose proof (HH _ (znth_In (0, []) L a ltac:(lia))) as H1. pose proof (HH _ (znth_In (0, []) L b ltac:(lia))) as H2. unfold line_equal. rewrite andb_true_iff, streq_ok, Z.eqb_eq. split; [tauto|]. intros Eq. split; [congruence|exact Eq].
Qed.
Lemma same_snoc h i j : same ls h i j -> znth [] ls (i + h) = znth [] ls (j + h) -> same ls (h + 1) i j.
Proof. intros S E k Hk. destruct (Z.eq_dec k h) as [->|]; [exact E|]. apply S. lia. Qed.
Lemma cmp_ok fuel : forall i j h, 0 <= i < j -> 0 <= h <= bl -> j + bl < lc -> same ls h i j -> bl - h < Z.of_nat fuel ->
  exists h', cmp_loop L bl fuel i j h = Ret h' /\ 0 <= h' <= bl /\ same ls h' i j /\ (h' < bl -> znth [] ls (i + h') <> znth [] ls (j + h')).
Proof using All.
  induction fuel as [|fuel IH]; intros i j h Hi Hh Hj S F; [lia|]. cbn [cmp_loop]. destruct (h <? bl) eqn:E.
  - rewrite !u64_id by lia. destruct (leq_ok (i + h) (j + h)) as (e & -> & He); [lia|lia|]. cbn [bind]. destruct e.
    + apply IH; try lia. apply same_snoc; [exact S|]. now apply He.
    + exists h. split; [reflexivity|]. split; [lia|]. split; [exact S|]. intros _ Eq. apply He in Eq. discriminate.
  - exists h. split; [reflexivity|]. split; [lia|]. split; [exact S|]. lia.
Qed.
Lemma ext_ok fuel : forall i j h, 0 <= i -> 0 <= h -> i + h <= j -> j + h <= lc -> same ls h i j -> lc - j - h < Z.of_nat fuel ->
  exists h', ext_loop L fuel i j h = Ret h' /\ h <= h' /\ duplicate ls h' i j.
Proof using All.
  induction fuel as [|fuel IH]; intros i j h Hi Hh Hij Hj S F; [lia|]. cbn [ext_loop]. rewrite !u64_id by lia. destruct (j + h <? lc) eqn:E1; cbn [andb]; [destruct (i + h <? j) eqn:E2|].
  - destruct (leq_ok (i + h) (j + h)) as (e & -> & He); [lia|lia|]. cbn [bind]. destruct e.
    + destruct (IH i j (h + 1)) as (h' & -> & Hh' & D); try lia. { apply same_snoc; [exact S|]. now apply He. } exists h'. split; [reflexivity|]. split; [lia|exact D].
    + exists h. split; [reflexivity|]. split; [lia|]. unfold duplicate. rewrite zlen_map. repeat (split; [lia || exact S|]). right; right. intros Eq. apply He in Eq. discriminate.
  - exists h. split; [reflexivity|]. split; [lia|]. unfold duplicate. rewrite zlen_map. repeat (split; [lia || exact S|]). left; lia.
  - exists h. split; [reflexivity|]. split; [lia|]. unfold duplicate. rewrite zlen_map. repeat (split; [lia || exact S|]). right; left; lia.
Qed.

Definition mrel (m : dmap) (pm : list (Z * list (Z * Z))) : Prop := Forall2 (fun e p => fst e = fst p /\ trep 8 (snd e) (snd p)) m pm.
Definition entry_ok (p : Z * list (Z * Z)) : Prop :=
  snd p <> [] /\ tsorted sortitem_cmp (snd p) /\ Forall (fun x => bl <= fst x /\ duplicate ls (fst x) (fst p) (snd x)) (snd p) /\ NoDup (map snd (snd p)).
Lemma dfind_none k m : Forall (fun e => fst e <> k) m -> dfind k m = None.
Proof. induction 1 as [|[a d] m H F IH]; cbn [dfind fst] in *; [reflexivity|]. now replace (k =? a) with false by lia. Qed.
Lemma dfind_last k m d : Forall (fun e => fst e <> k) m -> dfind k (m ++ [(k, d)]) = Some d.
Proof. induction 1 as [|[a e] m H F IH]; cbn [dfind fst app] in *; [now rewrite Z.eqb_refl|]. now replace (k =? a) with false by lia. Qed.
Lemma dset_last k m d d' : Forall (fun e => fst e <> k) m -> dset k d' (m ++ [(k, d)]) = m ++ [(k, d')].
Proof. induction 1 as [|[a e] m H F IH]; cbn [dset fst app] in *; [now rewrite Z.eqb_refl|]. replace (k =? a) with false by lia. now rewrite IH. Qed.

(** the bindings of the current first line *)
Definition cur (i : Z) (xs : list (Z * Z)) (c : dmap) : Prop :=
  match xs with [] => c = [] | _ => exists d, c = [(i, d)] /\ trep 8 d xs end.
Lemma note_ok m0 i c xs j h : Forall (fun e => fst e <> i) m0 -> cur i xs c -> zlen xs < 2 ^ 32 -> tsorted sortitem_cmp xs ->
  exists c' xs', note junk (m0 ++ c) i j h = Ret (m0 ++ c') /\ cur i xs' c' /\ Permutation xs' ((h, j) :: xs) /\ tsorted sortitem_cmp xs'.
Proof.
  intros F C Lx S.
  assert (exists d, dfind i (m0 ++ c) = match xs with [] => None | _ => Some d end /\ trep 8 (match dfind i (m0 ++ c) with None => tglist_init | Some d => d end) xs /\ (xs <> [] -> c = [(i, d)])) as (d & E & T & Ec).
  { destruct xs as [|x xs]; cbn [cur] in C; [subst c; rewrite app_nil_r; exists tglist_init; rewrite (dfind_none i m0 F); repeat split; try apply init_trep; congruence|]. destruct C as (d & -> & T). exists d. rewrite (dfind_last i m0 d F). auto. }
  unfold note. destruct (P_tgsort.insert_sorted_ok 8 sortitem_cmp ltac:(lia) (Some junk) _ xs (h, j) T ltac:(lia)) as (r & l' & -> & [(_ & _ & N)|(p & q & -> & -> & T' & S')]); [discriminate N|]. cbn [bind]. rewrite E.
  exists [(i, l')], (p ++ (h, j) :: q). split.
  { f_equal. destruct (p ++ q) as [|x xs] eqn:EP; [cbn [cur] in C; subst c; now rewrite app_nil_r|]. rewrite Ec by discriminate. now apply dset_last. }
  split; [|split; [symmetry; apply Permutation_middle|apply S'; [exact cmp_total|exact S]]]. unfold cur. destruct (p ++ (h, j) :: q) eqn:EQ; [destruct p; discriminate EQ|]. exists l'. split; [reflexivity|exact T'].
Qed.
Definition jinv (i j : Z) (xs : list (Z * Z)) (longest : Z) : Prop :=
  tsorted sortitem_cmp xs /\ Forall (fun x => bl <= fst x /\ duplicate ls (fst x) i (snd x)) xs /\ NoDup (map snd xs) /\
  Forall (fun x => snd x < j) xs /\ zlen xs <= j /\ Forall (fun x => fst x <= longest) xs /\ 0 <= longest /\ (xs = [] -> longest = 0) /\ (xs <> [] -> bl <= longest /\ exists x, In x xs /\ fst x = longest).
Lemma jinv_weak i j j' xs lg : jinv i j xs lg -> j <= j' -> jinv i j' xs lg.
Proof. intros (A & B & C & D & E & F) H. repeat (split; auto); try lia. eapply Forall_impl; [|exact D]. cbn; intros; lia. Qed.
Lemma jinv_add i j xs xs' lg h : jinv i j xs lg -> 0 <= j -> Permutation xs' ((h, j) :: xs) -> tsorted sortitem_cmp xs' -> bl <= h -> duplicate ls h i j ->
  jinv i (j + h) xs' (if lg <? h then h else lg).
Proof using All.
  intros (A & B & C & D & E & F & G & K0 & K) Hj P S Hb Du. set (lg' := if lg <? h then h else lg). assert (lg <= lg' /\ h <= lg' /\ (lg' = h \/ lg' = lg /\ lg >= h)) as (H1 & H2 & H3) by (unfold lg'; destruct (lg <? h) eqn:?; lia).
  assert (FA : forall Q : Z * Z -> Prop, Q (h, j) -> Forall Q xs -> Forall Q xs') by (intros Q Q1 Q2; eapply Permutation_Forall; [apply Permutation_sym, P|]; constructor; assumption).
  split; [exact S|]. split; [apply FA; [cbn; auto|exact B]|]. split.
  { eapply Permutation_NoDup; [apply Permutation_map, Permutation_sym, P|]. cbn [map snd]. constructor; [|exact C]. intros I. apply in_map_iff in I as (x & Ex & I). rewrite Forall_forall in D. specialize (D _ I). lia. }
  split; [apply FA; [cbn; lia|eapply Forall_impl; [|exact D]; cbn; intros; lia]|]. split. { unfold zlen in *. rewrite (Permutation_length P). cbn [length]. lia. }
  split; [apply FA; [cbn; lia|eapply Forall_impl; [|exact F]; cbn; intros; lia]|]. split; [lia|]. split; [intros ->; apply Permutation_nil in P; discriminate P|]. intros _. split; [lia|].
  destruct H3 as [H3|[H3 H4]]; [exists (h, j); split; [eapply Permutation_in; [apply Permutation_sym, P|]; left; reflexivity|cbn; lia]|].
  destruct xs as [|x xs]; [exists (h, j); split; [eapply Permutation_in; [apply Permutation_sym, P|]; left; reflexivity|cbn; cbn in *]|].
  - specialize (K0 eq_refl). lia.
  - destruct K as (_ & y & I & Ey); [discriminate|]. exists y. split; [eapply Permutation_in; [apply Permutation_sym, P|]; right; exact I|lia].
Qed.
Lemma j_ok fuel : forall m0 c xs i j lg, Forall (fun e => fst e <> i) m0 -> cur i xs c -> 0 <= i -> i + bl <= j -> j < 2 ^ 33 -> jinv i j xs lg -> (lc - j < Z.of_nat fuel /\ 0 < Z.of_nat fuel) ->
  exists c' xs' lg', j_loop L bl junk fuel i j (m0 ++ c) (zlen xs) lg = Ret (m0 ++ c', zlen xs', lg') /\ cur i xs' c' /\ jinv i (2 ^ 33) xs' lg' /\ zlen xs <= zlen xs' /\ (forall b, j <= b -> b + bl < lc -> same ls bl i b -> xs' <> [] \/ recurs ls bl i).
Proof using All.
  induction fuel as [|fuel IH]; intros m0 c xs i j lg F C Hi Hij Hj J Fu.
  - lia.
  - cbn [j_loop]. rewrite u64_id by lia. destruct (j + bl <? lc) eqn:E.
    + destruct (cmp_ok (S fuel) i j 0) as (h & -> & Hh & Sh & Nh); try lia. { intros k Hk; lia. } cbn [bind]. destruct (h =? bl) eqn:Eh.
      * assert (h = bl) by lia. subst h. destruct (ext_ok (S fuel) i j bl) as (h & -> & Hh' & Du); try lia; [exact Sh|]. cbn [bind]. pose proof J as (Js & Jd & Jn & Jj & Jl & Jr).
        destruct (note_ok m0 i c xs j h F C ltac:(lia) Js) as (c' & xs' & -> & C' & P & S'). cbn [bind]. replace (h =? 0) with false by lia. pose proof Du as (D1 & D2 & D3 & D4). rewrite zlen_map in D3. rewrite u64_id by lia.
        assert (Lx : zlen xs' = zlen xs + 1) by (unfold zlen; rewrite (Permutation_length P); cbn [length]; lia). rewrite <- Lx.
        destruct (IH m0 c' xs' i (j + h) _ F C' Hi ltac:(lia) ltac:(lia) (jinv_add _ _ _ _ _ _ J ltac:(lia) P S' Hh' Du) ltac:(lia)) as (c2 & xs2 & lg2 & -> & C2 & J2 & L2 & _).
        exists c2, xs2, lg2. split; [reflexivity|]. split; [exact C2|]. split; [exact J2|]. split; [lia|]. intros b _ _ _. left. intros ->. change (zlen []) with 0 in L2. pose proof (zlen_nonneg xs). lia.
      * set (j' := j + (if h =? 0 then 1 else h)). assert (Hj' : j < j' <= lc /\ (h = 0 -> j' = j + 1) /\ (0 < h -> j' = j + h)) by (unfold j'; destruct (h =? 0) eqn:?; lia). fold j'. clearbody j'. rewrite u64_id by lia.
        destruct (IH m0 c xs i j' lg F C Hi ltac:(lia) ltac:(lia) (jinv_weak i j j' xs lg J ltac:(lia)) ltac:(lia)) as (c2 & xs2 & lg2 & E2 & C2 & J2 & L2 & K2). rewrite E2.
        exists c2, xs2, lg2. split; [reflexivity|]. split; [exact C2|]. split; [exact J2|]. split; [lia|]. intros b Hb Hbl' Sb. destruct (Z_le_gt_dec j' b); [apply (K2 b); auto|]. destruct (Z.eq_dec b j) as [->|].
        -- exfalso. apply (Nh ltac:(lia)). apply Sb. lia.
        -- right. exists (b - j). split; [lia|]. rewrite (Sh (b - j)) by lia. replace (j + (b - j)) with (b + 0) by lia. rewrite <- (Sb 0) by lia. f_equal; lia.
    + exists c, xs, lg. split; [reflexivity|]. split; [exact C|]. split; [eapply jinv_weak; [exact J|lia]|]. split; [lia|]. intros; lia.
Qed.
Definition covered (a : Z) (pm : list (Z * list (Z * Z))) : Prop := exists k xs x, In (k, xs) pm /\ In x xs /\ k <= a < k + fst x.
Definition apart (e1 e2 : Z * list (Z * Z)) : Prop := Forall (fun x => fst e1 + fst x <= fst e2) (snd e1).
Definition pinv (i : Z) (pm : list (Z * list (Z * Z))) : Prop :=
  Forall (fun p => 0 <= fst p < i /\ entry_ok p /\ Forall (fun x => fst p + fst x <= i) (snd p)) pm /\ ForallOrdPairs apart pm /\
  (forall a, 0 <= a < i -> covered a pm \/ forall b, a + bl <= b -> b + bl < lc -> same ls bl a b -> recurs ls bl a).
Lemma FOP_snoc A (R : A -> A -> Prop) l x : ForallOrdPairs R l -> Forall (fun y => R y x) l -> ForallOrdPairs R (l ++ [x]).
Proof.
  induction 1 as [|a l F O IH]; intros H; cbn [app]; [constructor; constructor|]. inversion H; subst. constructor; [apply Forall_app; split; [exact F|constructor; auto]|]. now apply IH.
Qed.
Lemma covered_app a pm pm' : covered a pm -> covered a (pm ++ pm').
Proof. intros (k & xs & x & I & J & K). exists k, xs, x. split; [apply in_or_app; auto|auto]. Qed.
Lemma mrel_keys (Q : Z -> Prop) m pm : mrel m pm -> Forall (fun p => Q (fst p)) pm -> Forall (fun e => Q (fst e)) m.
Proof. induction 1 as [|e p m pm [E _] M IH]; intros F; inversion F; subst; constructor; [now rewrite E|auto]. Qed.
Lemma i_ok fuel : forall m pm i, mrel m pm -> pinv i pm -> 0 <= i <= lc -> lc - i < Z.of_nat fuel ->
  exists m' pm', i_loop L bl junk fuel i m = Ret m' /\ mrel m' pm' /\ pinv lc pm'.
Proof using All.
  induction fuel as [|fuel IH]; intros m pm i M P Hi F; [lia|]. cbn [i_loop]. destruct (i <? lc) eqn:E; [|exists m, pm; split; [reflexivity|]; split; [exact M|]; replace lc with i by lia; exact P].
  rewrite u64_id by lia. pose proof P as (Pe & Pd & Pc).
  assert (K : Forall (fun e => fst e <> i) m) by (apply (mrel_keys (fun k => k <> i) m pm M); eapply Forall_impl; [|exact Pe]; cbn; intros; lia).
  assert (J0 : jinv i (i + bl) [] 0). { repeat split; try constructor; try (cbn; lia); contradiction. }
  destruct (j_ok (S fuel) m [] [] i (i + bl) 0 K eq_refl ltac:(lia) ltac:(lia) ltac:(lia) J0 ltac:(lia)) as (c & xs & lg & EJ & C & J & _ & Co). rewrite app_nil_r in EJ. change (zlen []) with 0 in EJ. rewrite EJ. cbn [bind]. clear EJ.
  destruct xs as [|x xs].
  - cbn [cur] in C. subst c. rewrite app_nil_r. change (zlen []) with 0. cbn [Z.eqb]. rewrite u64_id by lia. apply (IH m pm (i + 1) M); [|lia|lia]. split; [|split; [exact Pd|]].
    + eapply Forall_impl; [|exact Pe]. cbn. intros [k ys] (H1 & H2 & H3). cbn [fst snd] in *. split; [lia|]. split; [exact H2|]. eapply Forall_impl; [|exact H3]. cbn; intros; lia.
    + intros a Ha. destruct (Z.eq_dec a i) as [->|]; [|apply Pc; lia]. right. intros b B1 B2 B3. destruct (Co b B1 B2 B3) as [H|H]; [contradiction|exact H].
  - destruct C as (d & -> & T). remember (x :: xs) as ys eqn:Ey. assert (Ny : ys <> []) by (subst; discriminate). clear x xs Ey. pose proof J as (Js & Jd & Jn & _ & _ & Jm & J1 & _ & J2). destruct (J2 Ny) as (Lg & y & Iy & Ey).
    assert (zlen ys <> 0). { destruct ys; [contradiction|rewrite zlen_cons; pose proof (zlen_nonneg ys); lia]. } replace (zlen ys =? 0) with false by lia.
    assert (Hlg : i + lg <= lc). { rewrite Forall_forall in Jd. destruct (Jd y Iy) as (_ & D1 & D2 & D3 & _). rewrite zlen_map in D3. lia. } rewrite u64_id by lia.
    apply (IH (m ++ [(i, d)]) (pm ++ [(i, ys)]) (i + lg)); [|split; [|split]|lia|lia].
    + apply Forall2_app; [exact M|]. constructor; [split; [reflexivity|exact T]|constructor].
    + apply Forall_app. split; [eapply Forall_impl; [|exact Pe]; cbn; intros [k zs] (H1 & H2 & H3); cbn [fst snd] in *; split; [lia|]; split; [exact H2|]; eapply Forall_impl; [|exact H3]; cbn; intros; lia|].
      constructor; [|constructor]. cbn [fst snd]. split; [lia|]. split; [repeat split; assumption|]. eapply Forall_impl; [|exact Jm]. cbn; intros; lia.
    + apply FOP_snoc; [exact Pd|]. eapply Forall_impl; [|exact Pe]. intros p (H1 & H2 & H3). exact H3.
    + intros a Ha. destruct (Z_lt_ge_dec a i). { destruct (Pc a ltac:(lia)) as [H'|H']; [left; now apply covered_app|right; exact H']. }
      left. exists i, ys, y. split; [apply in_or_app; right; left; reflexivity|]. split; [exact Iy|lia].
Qed.
Lemma search_ok fuel : lc < Z.of_nat fuel -> exists m pm, search L bl junk fuel = Ret m /\ mrel m pm /\ pinv lc pm.
Proof using All.
  intros F. unfold search. rewrite u64_id by lia. replace (bl <? bl + 1) with true by lia. pose proof (zlen_nonneg L). apply (i_ok fuel [] [] 0); [constructor| |lia|lia]. split; [constructor|]. split; [constructor|intros; lia].
Qed.
End S.
