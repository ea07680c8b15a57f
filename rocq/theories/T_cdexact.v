(** C87 and C88 for every file: lines of any length, with any bytes. *)
From Verif Require Import Base Cstr S_fileparser M_spfile P_spfile M_tglist D_tgsort S_fpuse M_codedup S_codedup P_codedup P_codedup2 P_codedup3.
From Coq Require Import Permutation.

(** a file cut into lines, where a line of more than 1022 bytes is cut after every 1023 bytes; the last
    piece of such a line has at most 1022 bytes, and none if the line is a multiple of 1023 bytes long
    and has its LF *)
Inductive cut_lines : list Z -> list (list Z) -> Prop :=
| CLnil : cut_lines [] []
| CLlast l : l <> [] -> no_lf l -> zlen l <= 1022 -> cut_lines l [l]
| CLline l r ls : no_lf l -> zlen l <= 1022 -> cut_lines r ls -> cut_lines (l ++ 10 :: r) (l :: ls)
| CLlong l r ls : no_lf l -> zlen l = 1023 -> cut_lines r ls -> cut_lines (l ++ r) (l :: ls).

Lemma before0_split l : (nz l /\ before0 l = l) \/ exists b, l = before0 l ++ 0 :: b /\ nz (before0 l).
Proof.
  induction l as [|c l IH]; cbn [before0]; [left; split; [constructor|reflexivity]|]. destruct (c =? 0) eqn:E.
  - right. exists l. replace c with 0 by lia. split; [reflexivity|constructor].
  - destruct IH as [[N ->]|(b & E' & N)].
    + left. split; [apply nz_cons; split; [lia|exact N]|reflexivity].
    + right. exists b. split; [cbn; now f_equal|apply nz_cons; split; [lia|exact N]].
Qed.
(** lines 91-93 *)
Lemma chop l (e : bool) t : no_lf l -> exists t', zlen (before0 l ++ 0 :: t') = zlen ((l ++ if e then [10] else []) ++ 0 :: t) /\ nz (before0 l) /\
  (let buf := (l ++ if e then [10] else []) ++ 0 :: t in
   let* n := strlen buf 0 in
   match strrchr_lf (ztake n buf) 0 None with Some q => zwrite buf q 0 | None => Ret buf end) = Ret (before0 l ++ 0 :: t').
Proof.
  intros Fl. destruct (before0_split l) as [[N ->]|(b & E & N)]; cbv zeta.
  - destruct e.
    + exists (0 :: t). split; [rewrite <- app_assoc; cbn [app]; rewrite !zlen_app, !zlen_cons; lia|]. split; [exact N|]. rewrite strlen_0 by (apply nz_app; split; [exact N|repeat constructor; lia]). cbn [bind]. rewrite ztake_app1, ztake_all by lia. rewrite strrchr_end by (apply nolf_F; exact Fl). rewrite Z.add_0_l. rewrite <- app_assoc. cbn [app]. rewrite zwrite_at by reflexivity. reflexivity.
    + exists t. rewrite app_nil_r. split; [reflexivity|]. split; [exact N|]. rewrite strlen_0 by exact N. cbn [bind]. rewrite ztake_app1, ztake_all by lia. rewrite strrchr_none by (apply nolf_F; exact Fl). reflexivity.
  - set (a := before0 l) in *. clearbody a. subst l. exists ((b ++ if e then [10] else []) ++ 0 :: t). split; [rewrite <- ?app_assoc; cbn [app]; rewrite <- ?app_assoc; reflexivity|]. split; [exact N|].
    replace (((a ++ 0 :: b) ++ (if e then [10] else [])) ++ 0 :: t) with (a ++ 0 :: ((b ++ (if e then [10] else [])) ++ 0 :: t)) by (rewrite <- ?app_assoc; cbn [app]; rewrite <- ?app_assoc; reflexivity).
    rewrite strlen_0 by exact N. cbn [bind]. rewrite ztake_app1, ztake_all by lia. rewrite strrchr_none; [reflexivity|]. apply nolf_F in Fl. apply Forall_app in Fl as [Fl _]. exact Fl.
Qed.
Lemma one_line ws start end_ buf input i acc fuel l (e : bool) r : 0 <= start -> zlen buf = 1024 -> input <> [] -> fgets_take 1023 input = l ++ (if e then [10] else []) -> no_lf l ->
  zlen (l ++ if e then [10] else []) <= 1023 -> zdrop (zlen (l ++ if e then [10] else [])) input = r -> 0 <= i -> i + 1 < 2 ^ 63 -> zlen acc = Z.max 0 (i - start) ->
  exists buf', zlen buf' = 1024 /\ read_loop (S fuel) ws start end_ buf input i acc =
    if i <? start then read_loop fuel ws start end_ buf' r (i + 1) acc
    else if negb (end_ =? SIZE_MAX) && (end_ <=? i + 1) then Ret acc
    else read_loop fuel ws start end_ buf' r (i + 1) (acc ++ [mkline (strip ws (before0 l))]).
Proof.
  intros Hs Lb Ni Ed Fl Ld Er Hi Hi2 La. destruct (read_step ws start end_ buf input i acc fuel _ r Lb Ni Ed Ld Er Hi Hi2) as (t & Lt & ->).
  destruct (i <? start) eqn:E1; [eexists; split; [exact Lt|reflexivity]|]. destruct (_ && _); [eexists; split; [exact Lt|reflexivity]|].
  destruct (chop l e t Fl) as (t' & Lt' & N & C). exists (before0 l ++ 0 :: t'). split; [lia|]. cbv zeta in C |- *. revert C. destruct (strlen _ 0) as [n| |]; cbn [bind]; try discriminate. intros ->. cbn [bind]. apply store_ok; auto; lia.
Qed.
Lemma read_cut ws start end_ : 0 <= start < 2 ^ 64 -> forall input fl, cut_lines input fl ->
  forall fuel buf i acc, zlen buf = 1024 -> (length fl < fuel)%nat -> 0 <= i -> i + zlen fl < 2 ^ 63 -> zlen acc = Z.max 0 (i - start) ->
  read_loop fuel ws start end_ buf input i acc = Ret (acc ++ map mkline (slice (start - i) (lim end_ - Z.max start i) (map (fun l => strip ws (before0 l)) fl))).
Proof.
  intros Hs.
  assert (STEP : forall l (e : bool) input r fl, input <> [] -> fgets_take 1023 input = l ++ (if e then [10] else []) -> no_lf l ->
    zlen (l ++ if e then [10] else []) <= 1023 -> zdrop (zlen (l ++ if e then [10] else [])) input = r ->
    (forall fuel buf i acc, zlen buf = 1024 -> (length fl < fuel)%nat -> 0 <= i -> i + zlen fl < 2 ^ 63 -> zlen acc = Z.max 0 (i - start) ->
     read_loop fuel ws start end_ buf r i acc = Ret (acc ++ map mkline (slice (start - i) (lim end_ - Z.max start i) (map (fun l => strip ws (before0 l)) fl)))) ->
    forall fuel buf i acc, zlen buf = 1024 -> (length (l :: fl) < fuel)%nat -> 0 <= i -> i + zlen (l :: fl) < 2 ^ 63 -> zlen acc = Z.max 0 (i - start) ->
     read_loop fuel ws start end_ buf input i acc = Ret (acc ++ map mkline (slice (start - i) (lim end_ - Z.max start i) (map (fun l => strip ws (before0 l)) (l :: fl))))).
  { intros l e input r fl Ni Ed Fl Ld Er IH fuel buf i acc Lb F Hi Hi2 La. destruct fuel as [|fuel]; [cbn in F; lia|]. rewrite zlen_cons in Hi2. pose proof (zlen_nonneg fl).
    destruct (one_line ws start end_ buf input i acc fuel l e r ltac:(lia) Lb Ni Ed Fl Ld Er Hi ltac:(lia) La) as (buf' & Lb' & ->).
    cbn [map]. rewrite slice_step. destruct (i <? start) eqn:E1.
    + rewrite IH; auto; try (cbn in F; lia); try lia. replace (start - i <=? 0) with false by lia. do 3 f_equal. f_equal; lia.
    + replace (start - i <=? 0) with true by lia. replace (negb (end_ =? SIZE_MAX) && (end_ <=? i + 1)) with (lim end_ - Z.max start i <=? 0) by (apply lim_eq; lia).
      destruct (lim end_ - Z.max start i <=? 0) eqn:E2; [cbn [map]; now rewrite app_nil_r|].
      rewrite IH; auto; try (cbn in F; lia); try lia.
      * cbn [map]. rewrite <- app_assoc. cbn [app]. do 4 f_equal. unfold slice. replace (Z.to_nat (start - (i + 1))) with (Z.to_nat (start - i)) by lia. f_equal. f_equal. lia.
      * rewrite zlen_app. change (zlen [_]) with 1. lia. }
  intros input fl FL. induction FL as [|l Nl Fl Ll|l r fl Fl Ll FL IH|l r fl Fl Ll FL IH].
  - intros fuel buf i acc Lb F Hi Hi2 La. destruct fuel as [|fuel]; [cbn in F; lia|]. cbn [read_loop map]. unfold fgets. cbn [bind]. rewrite slice_nil. cbn [map]. now rewrite app_nil_r.
  - apply (STEP l false l []); rewrite ?app_nil_r; auto; try lia.
    + rewrite fgets_take_no by (apply Fl). apply firstn_all2. unfold zlen in Ll. lia.
    + apply zdrop_all. lia.
    + intros fuel buf i acc Lb F Hi Hi2 La. destruct fuel as [|fuel]; [cbn in F; lia|]. cbn [read_loop map]. unfold fgets. cbn [bind]. rewrite slice_nil. cbn [map]. now rewrite app_nil_r.
  - apply (STEP l true (l ++ 10 :: r) r); auto.
    + destruct l; discriminate.
    + apply fgets_take_lf; [exact Fl|]. unfold zlen in Ll. lia.
    + rewrite zlen_app. change (zlen [10]) with 1. lia.
    + change (10 :: r) with ([10] ++ r). rewrite app_assoc. now apply zdrop_app_exact.
  - apply (STEP l false (l ++ r) r); rewrite ?app_nil_r; auto.
    + destruct l; [cbn in Ll; lia|discriminate].
    + clear - Fl Ll. assert (K : forall l n, no_lf l -> length l = n -> fgets_take n (l ++ r) = l).
      { clear. induction l as [|c l IH]; intros n Fl L; cbn in L; subst n; [reflexivity|]. cbn [fgets_take app]. apply nolf_F in Fl. inversion Fl as [|? ? A B]; subst. replace (c =? 10) with false by lia. f_equal. apply IH; [|reflexivity]. intros I. rewrite Forall_forall in B. now apply (B 10 I). }
      apply K; [exact Fl|]. unfold zlen in Ll. lia.
    + lia.
    + now apply zdrop_app_exact.
Qed.

(** every file can be cut so *)
Theorem c87_cut_total : forall input, exists fl, cut_lines input fl.
Proof.
  intros input. remember (length input) as n eqn:E. assert (L : (length input <= n)%nat) by lia. clear E. revert input L. induction n as [|n IH]; intros input L.
  - destruct input; [|cbn in L; lia]. exists []. constructor.
  - destruct input as [|c0 i0] eqn:E; [exists []; constructor|]. rewrite <- E in *. clear c0 i0 E.
    assert (K : forall k x, (exists l r, x = l ++ 10 :: r /\ no_lf l /\ (length l <= k)%nat) \/ (no_lf x /\ (length x <= k)%nat) \/ (exists l r, x = l ++ r /\ no_lf l /\ length l = S k)).
    { clear. induction k as [|k IHk]; intros [|c x]; [right; left; split; [intros []|cbn; lia]| |right; left; split; [intros []|cbn; lia]|].
      - destruct (Z.eq_dec c 10) as [->|N]; [left; exists [], x; split; [reflexivity|split; [intros []|cbn; lia]]|]. right. right. exists [c], x. split; [reflexivity|]. split; [intros [H|[]]; lia|reflexivity].
      - destruct (Z.eq_dec c 10) as [->|N]; [left; exists [], x; split; [reflexivity|split; [intros []|cbn; lia]]|].
        assert (NC : forall l, no_lf l -> no_lf (c :: l)) by (intros l Hl [H|H]; [lia|contradiction]).
        destruct (IHk x) as [(l & r & -> & A & B)|[[A B]|(l & r & -> & A & B)]].
        + left. exists (c :: l), r. split; [reflexivity|]. split; [now apply NC|cbn; lia].
        + right. left. split; [now apply NC|cbn; lia].
        + right. right. exists (c :: l), r. split; [reflexivity|]. split; [now apply NC|cbn; lia]. }
    destruct (K 1022%nat input) as [(l & r & -> & A & B)|[[A B]|(l & r & -> & A & B)]].
    + destruct (IH r) as (fl & F); [rewrite app_length in L; cbn in L; lia|]. exists (l :: fl). constructor; auto. unfold zlen. lia.
    + destruct input; [exists []; constructor|]. exists [z :: input]. constructor; auto; [discriminate|]. unfold zlen. lia.
    + destruct (IH r) as (fl & F); [rewrite app_length in L; lia|]. exists (l :: fl). constructor; auto. unfold zlen. lia.
Qed.
Print Assumptions c87_cut_total.
(** what is stored of any file: the pieces, each up to its first NUL *)
Theorem c87_lines_exact : forall ws start end_ input fl fuel buf,
  0 <= start < 2 ^ 64 -> 0 <= end_ < 2 ^ 64 -> cut_lines input fl ->
  zlen buf = 1024 -> (length fl < fuel)%nat -> zlen fl < 2 ^ 63 ->
  read_loop fuel ws start end_ buf input 0 [] = Ret (map (fun s => (string_hash s, s)) (selected ws start end_ (map before0 fl))).
Proof.
  intros ws start end_ input fl fuel buf Hs He FL Lb F Lf. rewrite (read_cut ws start end_ Hs input fl FL fuel buf 0 [] Lb F) by (try (change (zlen []) with 0); lia). cbn [app]. f_equal. f_equal. unfold selected, lim, strip. rewrite Z.sub_0_r, map_map. change (2 ^ 64 - 1) with SIZE_MAX. destruct (end_ =? SIZE_MAX) eqn:E; [|f_equal; lia].
  unfold slice. rewrite !firstn_all2; [reflexivity| |]; rewrite skipn_length, map_length; unfold zlen in *; rewrite ?map_length; lia.
Qed.
Print Assumptions c87_lines_exact.
(** the report on any file *)
Theorem c88_report_any : forall fuel ws bl start end_ junk order buf input fl,
  0 <= start < 2 ^ 64 -> 0 <= end_ < 2 ^ 64 -> cut_lines input fl -> zlen fl < 2 ^ 31 -> 1 <= bl < 2 ^ 31 ->
  zlen buf = 1024 -> (length fl < fuel)%nat -> (forall m, Permutation (order m) (map fst m)) ->
  let ls := selected ws start end_ (map before0 fl) in
  exists ds, codedup fuel ws bl start end_ junk order buf input = Ret ds /\
   Forall (fun d => dcnt d = zlen (dothers d) /\ good_block ls bl (dn d) (dat d - start) (map (fun b => b - start) (dothers d)) (dtext d)) ds /\
   ForallOrdPairs (fun d e => dn e < dn d \/ dn e = dn d /\ dat d < dat e) ds /\
   ForallOrdPairs (fun d e => dat d + dn d <= dat e \/ dat e + dn e <= dat d) ds /\
   (forall a b, 0 <= a -> a + bl <= b -> b + bl < zlen ls -> same ls bl a b -> ~ recurs ls bl a -> exists d, In d ds /\ dat d - start <= a < dat d - start + dn d).
Proof.
  intros fuel ws bl start end_ junk order buf input fl Hs He FL Lf Hbl Lb F O ls. unfold codedup. rewrite (c87_lines_exact ws start end_ input fl) by (auto; lia). change (fun s => (string_hash s, s)) with mkline. fold ls. cbn [bind]. destruct (mkline_ok ls) as [M1 M2].
  assert (Ll : zlen (map mkline ls) <= zlen fl). { rewrite zlen_map. unfold ls, selected, slice, zlen. rewrite firstn_length, skipn_length, !map_length. lia. }
  destruct (search_ok (map mkline ls) bl junk ltac:(lia) Hbl M2 fuel) as (m & pm & -> & M & P); [unfold zlen in *; lia|]. cbn [bind].
  destruct (report_ok (map mkline ls) bl junk ltac:(lia) Hbl m pm order start M P (O m)) as (ds & -> & R). rewrite M1, zlen_map in R. exists ds. split; [reflexivity|exact R].
Qed.
Print Assumptions c88_report_any.
(** a NUL inside a line, and a line of 1023 bytes *)
Example c87_exact_example : cut_lines ([97; 0; 98; 10] ++ zrepeat 99 1023 ++ [10]) [[97; 0; 98]; zrepeat 99 1023; []] /\
  read_loop 4 false 0 SIZE_MAX (zrepeat 7 1024) ([97; 0; 98; 10] ++ zrepeat 99 1023 ++ [10]) 0 [] = Ret [(97, [97]); (string_hash (zrepeat 99 1023), zrepeat 99 1023); (0, [])].
Proof.
  split; [|vm_compute; reflexivity]. apply (CLline [97; 0; 98]); [unfold no_lf; cbn; lia|cbn; lia|]. apply CLlong; [|reflexivity|].
  - intros I. apply repeat_spec in I. lia.
  - apply (CLline []); [intros []|cbn; lia|constructor].
Qed.
