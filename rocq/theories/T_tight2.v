(** More theorems added after single-token changes of the model went unnoticed. *)
From Coq Require Import Lia.
From Verif Require Import Base Cstr M_hex M_heap M_own D_own M_ownfl M_codedup M_proc M_fileparser M_fpuse T_tight.

(** C75: sblist_insert puts the item at its place and moves the later ones up; it fails exactly if a full list gets no memory *)
Theorem c75_insert A h (l : hsb A) x pos d ok h' l' : 0 <= pos <= zlen (hits l) -> sb_insert h l x pos = Ret (ok, h', l') ->
  if ok : bool then zlen (hits l') = zlen (hits l) + 1 /\ znth d (hits l') pos = x /\ (forall j, 0 <= j < pos -> znth d (hits l') j = znth d (hits l) j) /\ (forall j, pos <= j < zlen (hits l) -> znth d (hits l') (j + 1) = znth d (hits l) j)
  else l' = l /\ zlen (hits l) = hcapa l.
Proof.
  intros Hp. unfold sb_insert. destruct (sb_grow h l) as [[[ok1 h1] l1]| |] eqn:G; [|discriminate|discriminate]. cbn [bind].
  assert (X : hits l1 = hits l /\ (ok1 = false -> l1 = l /\ zlen (hits l) = hcapa l)).
  { unfold sb_grow in G. destruct (Z.eqb_spec (zlen (hits l)) (hcapa l)) as [E|E]; [|injection G as <- <- <-; split; [reflexivity|discriminate]].
    destruct (hrealloc h (hbuf l)) as [[t h2]| |]; [|discriminate|discriminate]. cbn [bind] in G. destruct (t =? NULL); injection G as <- <- <-; split; try reflexivity; try discriminate. auto. }
  destruct X as [X1 X2]. destruct ok1; intros [= <- <- <-]; [|now apply X2]. cbn [hits with_items]. rewrite X1.
  destruct (zsplit pos (hits l)) as (a & b & E & La); [lia|]. rewrite E in *. subst pos. rewrite ztake_app_exact, zdrop_app_exact. revert Hp. zl. intros Hp. pose proof (zlen_nonneg a). pose proof (zlen_nonneg b).
  split; [lia|]. split; [apply znth_app_exact|]. split; intros j Hj.
  - rewrite !znth_app1 by lia. reflexivity.
  - rewrite !znth_app2 by lia. replace (j + 1 - zlen a) with (j - zlen a + 1) by lia. unfold znth. replace (Z.to_nat (j - zlen a + 1)) with (S (Z.to_nat (j - zlen a))) by lia. reflexivity.
Qed.
Print Assumptions c75_insert.
(** sblist_delete moves the later items down; sblist_pop takes the last one off *)
Theorem c75_delete A (l : hsb A) i d : 0 <= i < zlen (hits l) ->
  zlen (hits (sb_delete l i)) = zlen (hits l) - 1 /\ (forall j, 0 <= j < i -> znth d (hits (sb_delete l i)) j = znth d (hits l) j) /\ (forall j, i <= j -> znth d (hits (sb_delete l i)) j = znth d (hits l) (j + 1)).
Proof.
  intros Hi. unfold sb_delete. replace (i <? zlen (hits l)) with true by lia. cbn [hits with_items]. destruct (zsplit i (hits l)) as (a & b & E & La); [lia|]. rewrite E in *. destruct b as [|y b]; [rewrite app_nil_r in Hi; lia|]. subst i.
  replace (a ++ y :: b) with ((a ++ [y]) ++ b) by (now rewrite <- app_assoc). replace (zlen a + 1) with (zlen (a ++ [y])) by (zl; cbn; lia). rewrite zdrop_app_exact. rewrite <- app_assoc, ztake_app_exact. cbn [app]. pose proof (zlen_nonneg a). pose proof (zlen_nonneg b). zl. split; [lia|]. split; intros j Hj.
  - rewrite !znth_app1 by lia. reflexivity.
  - rewrite !znth_app2 by lia. replace (j + 1 - zlen a) with (j - zlen a + 1) by lia. unfold znth. replace (Z.to_nat (j - zlen a + 1)) with (S (Z.to_nat (j - zlen a))) by lia. reflexivity.
Qed.
Print Assumptions c75_delete.
Theorem c75_pop A (l : hsb A) xs x : (hits l = [] -> sb_pop l = l) /\ (hits l = xs ++ [x] -> hits (sb_pop l) = xs).
Proof.
  unfold sb_pop. split; intros E; rewrite E; [reflexivity|]. pose proof (zlen_nonneg xs). assert (L : zlen (xs ++ [x]) = zlen xs + 1) by (zl; lia). rewrite L. replace (0 <? zlen xs + 1) with true by lia. unfold sb_delete. rewrite E, L.
  replace (zlen xs + 1 - 1) with (zlen xs) by lia. replace (zlen xs <? zlen xs + 1) with true by lia. cbn [hits with_items]. rewrite ztake_app_exact. rewrite zdrop_all by lia. apply app_nil_r.
Qed.
Print Assumptions c75_pop.
(** items are only ever stored in a block *)
Theorem c75_has_block A (ops : list (sop A)) h bi h' l' : Forall pos_ok ops -> srun h (sb_init bi) ops = Ret (h', l') -> hits l' <> [] -> hbuf l' <> NULL.
Proof.
  assert (G : forall h (l : hsb A) ok h1 l1, (hbuf l = NULL -> hcapa l = 0 /\ hits l = []) -> sb_grow h l = Ret (ok, h1, l1) -> (hbuf l1 = NULL -> hcapa l1 = 0 /\ hits l1 = []) /\ (ok = true -> hbuf l1 <> NULL)).
  { intros h0 l ok h1 l1 I. unfold sb_grow. destruct (Z.eqb_spec (zlen (hits l)) (hcapa l)) as [E|E].
    - destruct (hrealloc h0 (hbuf l)) as [[t h2]| |]; [|discriminate|discriminate]. cbn [bind]. destruct (Z.eqb_spec t NULL) as [Et|Et]; intros [= <- <- <-]; cbn [hbuf]; [split; [exact I|discriminate]|]. split; [intros X; now rewrite X in Et|auto].
    - intros [= <- <- <-]. split; [exact I|]. intros _ X. destruct (I X) as [C H]. rewrite C, H in E. now apply E. }
  assert (R : forall ops h l, Forall pos_ok ops -> (hbuf l = NULL -> hcapa l = 0 /\ hits l = []) -> srun h l ops = Ret (h', l') -> hbuf l' = NULL -> hits l' = []).
  { clear ops h bi. induction ops as [|o ops IH]; intros h l F I; [intros [= <- <-]; intros X; now apply I|]. cbn [srun]. inversion F as [|? ? Fo F']; subst. specialize (fun h l => IH h l F'). destruct o as [x|x i|i|x i| |].
    - unfold sb_add. destruct (sb_grow h l) as [[[ok h1] l1]| |] eqn:E; [|discriminate|discriminate]. destruct (G _ _ _ _ _ I E) as [I1 N]. destruct ok; cbn [bind]; apply IH; [cbn; intros X; now apply N in X|exact I1].
    - unfold sb_insert. destruct (sb_grow h l) as [[[ok h1] l1]| |] eqn:E; [|discriminate|discriminate]. destruct (G _ _ _ _ _ I E) as [I1 N]. destruct ok; cbn [bind]; apply IH; [cbn; intros X; now apply N in X|exact I1].
    - cbn [bind]. apply IH. unfold sb_delete. destruct (_ <? _) eqn:E; [|exact I]. cbn. intros X. destruct (I X) as [C H]. split; [exact C|]. rewrite H. unfold ztake, zdrop. now rewrite firstn_nil, skipn_nil.
    - cbn [bind]. apply IH. unfold sb_set. destruct (zlen (hits l) <=? i) eqn:E; [exact I|]. cbn. intros X. destruct (I X) as [C H]. exfalso. cbn [pos_ok] in Fo. rewrite H in E. change (zlen []) with 0 in E. lia.
    - cbn [bind]. apply IH. unfold sb_pop. destruct (0 <? _) eqn:E; [|exact I]. unfold sb_delete. destruct (zlen (hits l) - 1 <? zlen (hits l)); [|exact I]. cbn [hbuf with_items]. intros X. destruct (I X) as [C H]. rewrite H in E. discriminate.
    - unfold sb_free_items. destruct (if hbuf l =? NULL then Ret h else hfree h (hbuf l)) as [h1| |]; [|discriminate|discriminate]. cbn [bind]. apply IH. cbn. auto. }
  intros F E N X. apply N. apply (R ops h (sb_init bi)); auto.
Qed.
Print Assumptions c75_has_block.
Example c75_ops_ex : let l := mkHsb 1 2 8 8 [5; 6; 7] in
  match sb_insert (mkHeap [1; 2] 3 []) l 9 1 with Ret (ok, _, l) => (ok, hits l) | _ => (false, []) end = (true, [5; 9; 6; 7]) /\
  match sb_insert (mkHeap [1; 2] 3 [false]) (mkHsb 1 2 3 8 [5; 6; 7]) 9 1 with Ret (ok, _, l) => (ok, hits l) | _ => (true, []) end = (false, [5; 6; 7]) /\
  hits (sb_delete l 0) = [6; 7] /\ hits (sb_pop l) = [5; 6] /\
  match srun (mkHeap [] 4 []) (sb_init 2) [SAdd 5; SPop; SAdd 6] with Ret (_, l) => (hits l, hbuf l) | _ => ([], 0) end = ([6], 4).
Proof. repeat split. Qed.

(** C80: filelist_search returns 1 exactly if glob fails, else 0 or -1 *)
Theorem c80_filelist_result h dots fs r h1 f : nxt h <> NULL -> fl_search h dots fs = Ret (r, h1, f) -> (r = 1 <-> exists s, script h = false :: s) /\ (r <> 1 -> r = 0 \/ r = -1).
Proof.
  assert (L : forall fs h g l r h1 f, fl_loop h g l fs = Ret (r, h1, f) -> r = 0 \/ r = -1).
  { clear. induction fs as [|[| |] fs IH]; intros h g l r h1 f; cbn [fl_loop]; [intros [= <- _ _]; auto|apply IH| |].
    - destruct (globfree h g) as [h2| |]; [|discriminate|discriminate]. intros [= <- _ _]. auto.
    - destruct (sb_add h l (1, 1)) as [[[ok h2] l2]| |]; [|discriminate|discriminate]. cbn [bind]. destruct ok; [apply IH|]. destruct (hfree h2 _) as [h3| |]; [|discriminate|discriminate]. cbn [bind].
      destruct (globfree h3 g) as [h4| |]; [|discriminate|discriminate]. intros [= <- _ _]. auto. }
  intros N. unfold fl_search. destruct (halloc h) as [g h2] eqn:A. assert (X : g = NULL <-> exists s, script h = false :: s).
  { unfold halloc in A. destruct (script h) as [|[|] s]; injection A as <- <-; split; intros H; try contradiction; try (destruct H; discriminate); eauto. }
  destruct (Z.eqb_spec g NULL) as [E|E].
  - intros [= <- _ _]. split; [split; [intros _; now apply X|reflexivity]|]. intros H. now contradiction H.
  - intros H. assert (R : r = 0 \/ r = -1).
    { destruct (sb_new h2 _) as [[l|] h3]; [destruct (split_adds h3 l dots) as [[h4 l4]| |]; [|discriminate|discriminate]; cbn [bind] in H; now apply L in H|]. destruct (globfree h3 g) as [h4| |]; [|discriminate|discriminate]. cbn [bind] in H. injection H as <- _ _. auto. }
    split; [|auto]. split; [intros ->; destruct R; discriminate|]. intros H1. apply X in H1. contradiction.
Qed.
Print Assumptions c80_filelist_result.
Example c80_filelist_result_ex : match fl_search (mkHeap [] 1 [false]) 1 [List] with Ret (r, _, _) => r | _ => 7 end = 1 /\ match fl_search (mkHeap [] 1 [true; false]) 1 [List] with Ret (r, _, _) => r | _ => 7 end = -1.
Proof. split; reflexivity. Qed.

(** C87: the hash takes char as signed *)
Theorem c87_hash_one c : 0 <= c < 256 -> string_hash [c] = if c <? 128 then c else Z.lxor (2 ^ 28 + c - 256) 240.
Proof.
  intros H. assert (X : forallb (fun n => let c := Z.of_nat n in string_hash [c] =? if c <? 128 then c else Z.lxor (2 ^ 28 + c - 256) 240) (seq 0 256) = true) by (vm_compute; reflexivity).
  rewrite forallb_forall in X. specialize (X (Z.to_nat c)). cbv zeta in X. rewrite Z2Nat.id in X by lia. apply Z.eqb_eq, X. apply in_seq. lia.
Qed.
Print Assumptions c87_hash_one.
Example c87_hash_ex : string_hash [128] = 268435312 /\ string_hash [97; 98] = 1650.
Proof. split; reflexivity. Qed.

(** C93: the results of fileparser_open and fileparser_close *)
Theorem c93_open_result file e lim t junk r p t' : e <> 0 -> fp_open file e lim t junk = (r, p, t') -> (r = 0 <-> file <> None /\ newfd lim t (Other 0) <> None) /\ (file = None -> r = e) /\ (file <> None -> r <> 0 -> r = 24) /\
  (r <> 0 -> ffd p = -1 /\ t' = t) /\ (r = 0 -> fpos p = 0).
Proof.
  intros He. unfold fp_open. destruct file as [c|]; [destruct (newfd lim t (Other 0)) as [[fd t1]|]|]; intros [= <- <- <-]; cbn [ffd fpos]; repeat split; intros; try reflexivity; try discriminate; try contradiction; try (now exfalso); intuition congruence.
Qed.
Print Assumptions c93_open_result.
Theorem c93_close_result p t : exists p' t', fp_close p t = (0, p', t') /\ ffd p' = -1 /\ fpos p' = 0 /\ flen p' = 0.
Proof. unfold fp_close. eauto 10. Qed.
Print Assumptions c93_close_result.
Example c93_result_ex : fst (fst (fp_open None 2 64 [] (mkFp 7 7 7 [] 0))) = 2 /\ fst (fst (fp_open (Some [1]) 2 64 [None] (mkFp 7 7 7 [] 0))) = 0 /\ fst (fst (fp_open (Some [1]) 2 0 [] (mkFp 7 7 7 [] 0))) = 24.
Proof. vm_compute. repeat split; reflexivity. Qed.

(** C32: hex2raw with characters that are not digits.  At the second place of a pair the byte is 255; alone at
    the front of an odd number of characters as well; at the first place of a pair the shift is undefined *)
Definition hexdigit (c : Z) : bool := (48 <=? c) && (c <=? 57) || (65 <=? c) && (c <=? 70) || (97 <=? c) && (c <=? 102).
Lemma hval_bad c : hexdigit c = false -> hval c = -1.
Proof. unfold hexdigit, hval. intros H. repeat match goal with |- context [c =? ?k] => destruct (Z.eqb_spec c k); [subst; discriminate H|] end. reflexivity. Qed.
Lemma hval_good c : hexdigit c = true -> 0 <= hval c < 16.
Proof. unfold hexdigit, hval. intros H. repeat match goal with |- context [c =? ?k] => destruct (Z.eqb_spec c k); [subst; cbn; lia|] end. exfalso. lia. Qed.
Theorem c32_hex2raw_not_hex_refuted x y r d g : x <> 0 -> y <> 0 -> hexdigit y = false ->
  (hexdigit x = true -> hex2raw (x :: y :: 0 :: r) (d :: g) = Ret (1, 255 :: g)) /\ hex2raw (y :: 0 :: r) (d :: g) = Ret (1, 255 :: g) /\ hex2raw (y :: x :: 0 :: r) (d :: g) = UB.
Proof.
  intros X Y B. pose proof (hval_bad y B) as V.
  assert (S1 : strlen (y :: 0 :: r) 0 = Ret 1) by (apply (strlen_0 [y] r); repeat constructor; assumption).
  assert (S2 : forall a b, a <> 0 -> b <> 0 -> strlen (a :: b :: 0 :: r) 0 = Ret 2) by (intros a b A C; apply (strlen_0 [a; b] r); repeat constructor; assumption).
  split; [|split].
  - intros G. apply hval_good in G. unfold hex2raw. rewrite S2 by assumption. cbn [bind]. change (Z.land 2 1 =? 1) with false. cbn [bind]. cbn [hex2raw_loop List.length].
    change (zread (x :: y :: 0 :: r) 0) with (Ret x). cbn [bind]. replace (x =? 0) with false by lia. replace (hval x <? 0) with false by lia. change (zread (x :: y :: 0 :: r) (0 + 1)) with (Ret y). cbn [bind].
    rewrite V. rewrite Z.lor_m1_r. change (u8 (-1)) with 255. change (zwrite (d :: g) 0 255) with (Ret (255 :: g)). cbn [bind]. change (zread (x :: y :: 0 :: r) (0 + 2)) with (Ret 0). reflexivity.
  - unfold hex2raw. rewrite S1. cbn [bind]. change (Z.land 1 1 =? 1) with true. cbn iota. change (zread (y :: 0 :: r) 0) with (Ret y). cbn [bind]. rewrite V. change (u8 (-1)) with 255. change (zwrite (d :: g) 0 255) with (Ret (255 :: g)). cbn [bind].
    cbn [hex2raw_loop List.length]. change (zread (y :: 0 :: r) 1) with (Ret 0). reflexivity.
  - unfold hex2raw. rewrite S2 by assumption. cbn [bind]. change (Z.land 2 1 =? 1) with false. cbn [bind]. cbn [hex2raw_loop List.length]. change (zread (y :: x :: 0 :: r) 0) with (Ret y). cbn [bind]. replace (y =? 0) with false by lia. rewrite V. reflexivity.
Qed.
Print Assumptions c32_hex2raw_not_hex_refuted.
Example c32_not_hex_ex : hex2raw [97; 120; 0] [7; 8] = Ret (1, [255; 8]) /\ hex2raw [120; 97; 0] [7; 8] = UB.
Proof. split; reflexivity. Qed.
