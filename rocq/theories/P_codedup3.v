(** Proofs about examples/codedup.c: reading the file, and the whole program. *)
From Verif Require Import Base Cstr S_fileparser M_spfile P_spfile M_tglist D_tgsort M_codedup S_codedup P_codedup P_codedup2.
From Coq Require Import Permutation.

Definition strip (ws : bool) (l : list Z) : list Z := if ws then unindent l else l.
Lemma unindent_suffix l : exists p, l = p ++ unindent l.
Proof. induction l as [|c l (p & IH)]; cbn [unindent]; [exists []; reflexivity|]. destruct (_ || _); [exists (c :: p); cbn; now f_equal|exists []; reflexivity]. Qed.
Lemma skip_ok l : forall fuel pre t, (length l < fuel)%nat -> skip_ws fuel (pre ++ l ++ 0 :: t) (zlen pre) = Ret (zlen pre + (zlen l - zlen (unindent l))).
Proof.
  induction l as [|c l IH]; intros fuel pre t F; (destruct fuel as [|fuel]; [lia|]); cbn [skip_ws app unindent].
  - rewrite zread_app_exact. cbn [bind]. change (isspace 0) with false. cbv iota. f_equal. cbn. lia.
  - rewrite zread_app_exact. cbn [bind]. unfold isspace. destruct (_ || _).
    + specialize (IH fuel (pre ++ [c]) t). rewrite <- app_assoc in IH. cbn [app] in IH. rewrite zlen_app in IH. change (zlen [c]) with 1 in IH. rewrite IH by (cbn in F; lia). f_equal. rewrite zlen_cons. lia.
    + f_equal. lia.
Qed.
Lemma strrchr_none s : forall i b, Forall (fun c => c <> 10) s -> strrchr_lf s i b = b.
Proof. induction s as [|c s IH]; intros i b F; cbn [strrchr_lf]; [reflexivity|]. inversion F; subst. replace (c =? 10) with false by lia. now apply IH. Qed.
Lemma strrchr_end s : forall i b, Forall (fun c => c <> 10) s -> strrchr_lf (s ++ [10]) i b = Some (i + zlen s).
Proof. induction s as [|c s IH]; intros i b F; cbn [strrchr_lf app]; [cbn; f_equal; lia|]. inversion F; subst. rewrite IH by assumption. f_equal. rewrite zlen_cons. lia. Qed.
Lemma nolf_F l : no_lf l -> Forall (fun c => c <> 10) l.
Proof. intros N. apply Forall_forall. intros c I ->. contradiction. Qed.
Definition mkline (s : list Z) : Z * list Z := (string_hash s, s).
(** lines 94-100 on a buffer holding the line l *)
Definition store (fuel : nat) (ws : bool) (start end_ : Z) (buf input : list Z) (i : Z) (acc : list (Z * list Z)) : out (list (Z * list Z)) :=
  let* p := if ws then skip_ws (length buf) buf 0 else Ret 0 in
  let* n := strlen buf p in
  let* s := zreads buf p n in
  let acc := acc ++ [(string_hash s, s)] in
  if negb (zlen acc =? u64 (i - start)) then UB
  else
    let* x := zread acc (u64 (u64 (i - start) - 1)) in
    if negb (streq s (snd x)) then UB
    else read_loop fuel ws start end_ buf input i acc.
Lemma store_ok fuel ws start end_ l t input i acc : nz l -> zlen acc = i - 1 - start -> 0 <= start -> start < i < 2 ^ 64 ->
  store fuel ws start end_ (l ++ 0 :: t) input i acc = read_loop fuel ws start end_ (l ++ 0 :: t) input i (acc ++ [mkline (strip ws l)]).
Proof.
  intros N La Hs Hi. unfold store. destruct (unindent_suffix l) as (p & El).
  assert (exists p, (if ws then skip_ws (length (l ++ 0 :: t)) (l ++ 0 :: t) 0 else Ret 0) = Ret (zlen p) /\ l = p ++ strip ws l) as (p' & -> & El').
  { destruct ws; cbn [strip]; [exists p; split; [|exact El]|exists []; split; reflexivity]. pose proof (skip_ok l (length (l ++ 0 :: t)) [] t) as K. cbn [app] in K. change (zlen []) with 0 in K. rewrite K by (rewrite app_length; cbn; lia). f_equal. rewrite El at 1. rewrite zlen_app. lia. }
  cbn [bind]. set (s := strip ws l) in *. clearbody s. clear p El. subst l. apply nz_app in N as [Np Ns]. rewrite <- app_assoc. rewrite strlen_ok by auto. cbn [bind]. rewrite zreads_at by auto. cbn [bind]. rewrite zlen_app. change (zlen [(string_hash s, s)]) with 1. rewrite u64_id by lia. replace (zlen acc + 1 =? i - start) with true by lia. cbn [negb]. rewrite u64_id by lia.
  rewrite zread_at by lia. cbn [bind snd]. replace (streq s s) with true by (symmetry; now apply streq_ok). reflexivity.
Qed.
Lemma read_step ws start end_ buf input i acc fuel d r : zlen buf = 1024 -> input <> [] -> fgets_take 1023 input = d -> zlen d <= 1023 -> zdrop (zlen d) input = r ->
  0 <= i -> i + 1 < 2 ^ 63 ->
  exists t, zlen (d ++ 0 :: t) = 1024 /\
  read_loop (S fuel) ws start end_ buf input i acc =
  if i <? start then read_loop fuel ws start end_ (d ++ 0 :: t) r (i + 1) acc
  else if negb (end_ =? SIZE_MAX) && (end_ <=? i + 1) then Ret acc
  else let buf := d ++ 0 :: t in
    let* n := strlen buf 0 in
    let* buf := match strrchr_lf (ztake n buf) 0 None with Some q => zwrite buf q 0 | None => Ret buf end in
    store fuel ws start end_ buf r (i + 1) acc.
Proof.
  intros Lb Ni Ed Ld Er Hi Hi2. pose proof (zlen_nonneg d). destruct (zsplit (zlen d + 1) buf) as (b1 & b2 & -> & L1); [lia|]. exists b2. rewrite zlen_app in Lb. split; [rewrite zlen_app, zlen_cons; lia|].
  cbn [read_loop]. rewrite zlen_app, Lb. unfold fgets. change (Z.to_nat (1024 - 1)) with 1023%nat. rewrite Ed.
  pose proof (zwrites_at [] b1 b2 (d ++ [0]) 0 eq_refl ltac:(rewrite zlen_app; change (zlen [0]) with 1; lia)) as W. cbn [app] in W. rewrite W. rewrite <- app_assoc. cbn [app]. destruct input as [|c0 input]; [contradiction|]. cbn [bind]. rewrite Er. rewrite (u64_id (i + 1)) by lia. rewrite u64_id by lia. replace (i + 1 - 1) with i by lia. destruct (i <? start); [reflexivity|]. destruct (_ && _); [reflexivity|]. reflexivity.
Qed.
Definition lim (end_ : Z) : Z := if end_ =? SIZE_MAX then 2 ^ 64 else end_ - 1.
Lemma lim_eq end_ start i : 0 <= start <= i -> i + 1 < 2 ^ 63 -> (lim end_ - Z.max start i <=? 0) = negb (end_ =? SIZE_MAX) && (end_ <=? i + 1).
Proof.
  intros H1 H2. unfold lim. destruct (end_ =? SIZE_MAX) eqn:E; cbn [negb andb]; [apply Z.leb_gt; lia|]. destruct (end_ <=? i + 1) eqn:E2; [apply Z.leb_le|apply Z.leb_gt]; lia.
Qed.
Lemma slice_step {A} a m (x : A) l : slice a m (x :: l) = if a <=? 0 then if m <=? 0 then [] else x :: slice a (m - 1) l else slice (a - 1) m l.
Proof.
  unfold slice. destruct (a <=? 0) eqn:Ea.
  - replace (Z.to_nat a) with O by lia. cbn [skipn]. destruct (m <=? 0) eqn:Em; [replace (Z.to_nat m) with O by lia; reflexivity|]. replace (Z.to_nat m) with (S (Z.to_nat (m - 1))) by lia. reflexivity.
  - replace (Z.to_nat a) with (S (Z.to_nat (a - 1))) by lia. reflexivity.
Qed.
Lemma slice_nil {A} a m : slice a m (@nil A) = [].
Proof. unfold slice. now rewrite skipn_nil, firstn_nil. Qed.
Lemma slice_none {A} a m (l : list A) : m <= 0 -> slice a m l = [].
Proof. intros. unfold slice. now replace (Z.to_nat m) with O by lia. Qed.
Lemma read_ok ws start end_ : 0 <= start < 2 ^ 64 -> 0 <= end_ <= SIZE_MAX -> forall input fl, file_lines input fl -> Forall (fun l => nz l /\ zlen l <= 1022) fl ->
  forall fuel buf i acc, zlen buf = 1024 -> (length fl < fuel)%nat -> 0 <= i -> i + zlen fl < 2 ^ 63 -> zlen acc = Z.max 0 (i - start) ->
  read_loop fuel ws start end_ buf input i acc = Ret (acc ++ map mkline (slice (start - i) (lim end_ - Z.max start i) (map (strip ws) fl))).
Proof.
  intros Hs He input fl FL. induction FL as [|l Nl Fl|l r fl Fl FL IH]; intros FN fuel buf i acc Lb F Hi Hi2 La; (destruct fuel as [|fuel]; [cbn in F; lia|]).
  - cbn [read_loop map]. unfold fgets. cbn [bind]. rewrite slice_nil. cbn [map]. now rewrite app_nil_r.
  - inversion FN as [|? ? [N Ll] _]; subst. destruct fuel as [|fuel]; [cbn in F; lia|]. rewrite zlen_cons in Hi2. change (zlen []) with 0 in Hi2.
    destruct (read_step ws start end_ buf l i acc (S fuel) l [] Lb Nl) as (t & Lt & ->); try lia.
    { rewrite fgets_take_no by (apply Fl). apply firstn_all2. unfold zlen in Ll. lia. } { apply zdrop_all. lia. }
    assert (END : forall b acc', read_loop (S fuel) ws start end_ b [] (i + 1) acc' = Ret acc') by (intros; reflexivity).
    cbn [map]. rewrite slice_step, slice_nil. destruct (i <? start) eqn:E1.
    + rewrite END. replace (start - i <=? 0) with false by lia. rewrite slice_nil. cbn [map]. now rewrite app_nil_r.
    + replace (start - i <=? 0) with true by lia. replace (negb (end_ =? SIZE_MAX) && (end_ <=? i + 1)) with (lim end_ - Z.max start i <=? 0).
      2:{ apply lim_eq; lia. }
      destruct (lim end_ - Z.max start i <=? 0) eqn:E2; [cbn [map]; now rewrite app_nil_r|]. cbv zeta. rewrite strlen_0 by exact N. cbn [bind]. rewrite ztake_app1, ztake_all by lia. rewrite strrchr_none by (apply nolf_F; exact Fl). cbn [bind].
      rewrite store_ok by (auto; lia). rewrite END. reflexivity.
  - inversion FN as [|? ? [N Ll] FN']; subst. rewrite zlen_cons in Hi2. pose proof (zlen_nonneg fl).
    destruct (read_step ws start end_ buf (l ++ 10 :: r) i acc fuel (l ++ [10]) r Lb) as (t & Lt & ->); try lia.
    { destruct l; discriminate. } { apply fgets_take_lf; [exact Fl|]. unfold zlen in Ll. lia. } { rewrite zlen_app. change (zlen [10]) with 1. lia. } { change (10 :: r) with ([10] ++ r). rewrite app_assoc. now apply zdrop_app_exact. }
    cbn [map]. rewrite slice_step. destruct (i <? start) eqn:E1.
    + rewrite IH; auto; try (cbn in F; lia); try lia. replace (start - i <=? 0) with false by lia. do 3 f_equal. f_equal; lia.
    + replace (start - i <=? 0) with true by lia. replace (negb (end_ =? SIZE_MAX) && (end_ <=? i + 1)) with (lim end_ - Z.max start i <=? 0).
      2:{ apply lim_eq; lia. }
      destruct (lim end_ - Z.max start i <=? 0) eqn:E2; [cbn [map]; now rewrite app_nil_r|]. cbv zeta. rewrite strlen_0 by (apply nz_app; split; [exact N|repeat constructor; lia]). cbn [bind]. rewrite ztake_app1, ztake_all by lia. rewrite strrchr_end by (apply nolf_F; exact Fl). rewrite Z.add_0_l. rewrite <- app_assoc. cbn [app]. rewrite zwrite_at by reflexivity. cbn [bind].
      rewrite store_ok by (auto; lia). rewrite IH; auto; try (cbn in F; lia); try lia.
      * cbn [map]. rewrite <- app_assoc. cbn [app]. do 4 f_equal. unfold slice. replace (Z.to_nat (start - (i + 1))) with (Z.to_nat (start - i)) by lia. f_equal. f_equal. lia.
      * rewrite <- Lt. rewrite !zlen_app, !zlen_cons. change (zlen []) with 0. lia.
      * rewrite zlen_app. change (zlen [_]) with 1. lia.
Qed.
Lemma read_all ws start end_ input fl fuel buf : 0 <= start < 2 ^ 64 -> 0 <= end_ < 2 ^ 64 -> file_lines input fl -> Forall (fun l => nz l /\ zlen l <= 1022) fl ->
  zlen buf = 1024 -> (length fl < fuel)%nat -> zlen fl < 2 ^ 63 ->
  read_loop fuel ws start end_ buf input 0 [] = Ret (map mkline (selected ws start end_ fl)).
Proof.
  intros Hs He FL FN Lb F Lf. rewrite (read_ok ws start end_ Hs ltac:(unfold SIZE_MAX; lia) input fl FL FN fuel buf 0 [] Lb F) by (try (change (zlen []) with 0); lia). cbn [app]. f_equal. f_equal. unfold selected, lim, strip. rewrite Z.sub_0_r. change (2 ^ 64 - 1) with SIZE_MAX. destruct (end_ =? SIZE_MAX) eqn:E; [|f_equal; lia].
  unfold slice. rewrite !firstn_all2; [reflexivity| |]; rewrite skipn_length, map_length; unfold zlen in *; lia.
Qed.
Lemma mkline_ok ss : map snd (map mkline ss) = ss /\ Forall (fun x => fst x = string_hash (snd x)) (map mkline ss).
Proof. split; [rewrite map_map; apply map_id|]. apply Forall_forall. intros x I. apply in_map_iff in I as (s & <- & _). reflexivity. Qed.
Lemma codedup_ok fuel ws bl start end_ junk order buf input fl :
  0 <= start < 2 ^ 64 -> 0 <= end_ < 2 ^ 64 -> file_lines input fl -> Forall (fun l => nz l /\ zlen l <= 1022) fl -> zlen fl < 2 ^ 31 -> 1 <= bl < 2 ^ 31 ->
  zlen buf = 1024 -> (length fl < fuel)%nat -> (forall m, Permutation (order m) (map fst m)) ->
  let ls := selected ws start end_ fl in
  exists ds, codedup fuel ws bl start end_ junk order buf input = Ret ds /\
   Forall (fun d => dcnt d = zlen (dothers d) /\ good_block ls bl (dn d) (dat d - start) (map (fun b => b - start) (dothers d)) (dtext d)) ds /\
   ForallOrdPairs (fun d e => dn e < dn d \/ dn e = dn d /\ dat d < dat e) ds /\
   ForallOrdPairs (fun d e => dat d + dn d <= dat e \/ dat e + dn e <= dat d) ds /\
   (forall a b, 0 <= a -> a + bl <= b -> b + bl < zlen ls -> same ls bl a b -> ~ recurs ls bl a -> exists d, In d ds /\ dat d - start <= a < dat d - start + dn d).
Proof.
  intros Hs He FL FN Lf Hbl Lb F O ls. unfold codedup. rewrite (read_all ws start end_ input fl) by (auto; lia). fold ls. cbn [bind]. destruct (mkline_ok ls) as [M1 M2].
  assert (Ll : zlen (map mkline ls) <= zlen fl). { rewrite zlen_map. unfold ls, selected, slice, zlen. rewrite firstn_length, skipn_length, map_length. lia. }
  destruct (search_ok (map mkline ls) bl junk ltac:(lia) Hbl M2 fuel) as (m & pm & -> & M & P); [unfold zlen in *; lia|]. cbn [bind].
  destruct (report_ok (map mkline ls) bl junk ltac:(lia) Hbl m pm order start M P (O m)) as (ds & -> & R). rewrite M1, zlen_map in R. exists ds. split; [reflexivity|exact R].
Qed.
Lemma zero_hangs junk x : forall fuel c xs, cur 0 xs c -> tsorted sortitem_cmp xs -> zlen xs + Z.of_nat fuel < 2 ^ 32 -> i_loop [x] 0 junk fuel 0 c = Fuel.
Proof.
  induction fuel as [|fuel IH]; intros c xs C S Lx; [reflexivity|]. cbn [i_loop]. change (0 <? zlen [x]) with true. cbv iota. cbn [j_loop]. change (u64 (u64 (0 + 0) + 0) <? zlen [x]) with true. cbv iota. cbn [cmp_loop]. change (0 <? 0) with false. cbn [bind Z.eqb]. cbn [ext_loop]. change ((u64 (u64 (0 + 0) + 0) <? zlen [x]) && (u64 (0 + 0) <? u64 (0 + 0))) with false. cbv iota. cbn [bind]. change (u64 (0 + 0)) with 0.
  destruct (note_ok junk [] 0 c xs 0 0 ltac:(constructor) C ltac:(lia) S) as (c' & xs' & E & C' & P & S'). cbn [app] in E. rewrite E. cbn [bind]. destruct fuel as [|fuel]; [reflexivity|]. cbn [j_loop]. change (u64 (u64 (0 + (if 0 =? 0 then 1 else 0)) + 0) <? zlen [x]) with false. cbv iota. cbn [bind]. change (u64 (0 + (if 0 + 1 =? 0 then 1 else if 0 <? 0 then 0 else 0))) with 0. apply (IH c' xs'); auto. unfold zlen in *. rewrite (Permutation_length P). cbn [length]. lia.
Qed.
