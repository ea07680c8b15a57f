(** C90: examples/filelist_find_test.c and filelist_find_test2.c. *)
From Verif Require Import Base Cstr M_stringptr D_stringptr P_stringptr M_filelist S_filelist P_filelist T_filelist M_log T_log M_find S_find D_find P_find.

Lemma as_dir_last a : last (as_dir a) 0 = 47.
Proof. unfold as_dir. destruct (Z.eqb_spec (last a 0) 47) as [E|E]; [now rewrite app_nil_r|apply last_last]. Qed.
Lemma arg_holds a r : nz a -> zlen (a ++ 0 :: r) < 2 ^ 63 -> strlen (a ++ 0 :: r) 0 = Ret (zlen a) /\ holds (mkSp (a ++ 0 :: r) 0 (zlen a)) a.
Proof. intros N L. split; [now apply strlen_0|]. exists [], (0 :: r). repeat split. exact L. Qed.
Lemma slash_holds : holds (mkSp [47; 0] 0 1) [47].
Proof. exists [], [0]. repeat split. Qed.
(** C90: the first program writes what find lists: the directory and everything below, one path per line *)
Theorem c90_find glob junk mal fs a r ls : (forall k, zlen (junk k) = PATH_MAX) -> serves glob fs -> nz a -> zlen (a ++ 0 :: r) < 2 ^ 62 -> walk fs (as_dir a) ls ->
  exists N, forall fuel, (N <= fuel)%nat -> exists evs, find_main glob junk mal fuel 2 (a ++ 0 :: r) = Ret (0, evs) /\ sends 1 evs (output ls).
Proof.
  intros J G Na La W. destruct (doDir_ok glob junk mal fs J G _ _ W (as_dir_last a)) as (N & HN). exists N. intros fuel Hf. unfold find_main. cbn [Z.eqb Pos.eqb negb]. destruct (arg_holds a r Na ltac:(lia)) as [-> Ha]. cbn [bind]. rewrite (isdir_ok _ _ Ha). cbn [bind]. unfold as_dir in *. destruct (last a 0 =? 47); cbn [bind].
  - destruct (HN fuel Hf _ ltac:(rewrite app_nil_r; exact Ha)) as (evs & -> & S). cbn [bind]. eauto.
  - destruct (concat2_ok mal _ _ a [47] Ha slash_holds) as (d & -> & Hd); [revert La; zl; pose proof (zlen_nonneg r); lia|]. cbn [bind]. destruct (HN fuel Hf d Hd) as (evs & -> & S). cbn [bind]. eauto.
Qed.
Print Assumptions c90_find.
(** C90: and so does the second *)
Theorem c90_find2 glob junk mal fs a r ls : (forall k, zlen (junk k) = PATH_MAX) -> serves glob fs -> nz a -> zlen (a ++ 0 :: r) < 2 ^ 62 -> walk fs (as_dir a) ls ->
  exists N, forall fuel, (N <= fuel)%nat -> exists evs, find_main2 glob junk mal fuel 2 (a ++ 0 :: r) = Ret (0, evs) /\ sends 1 evs (output ls).
Proof.
  intros J G Na La W. destruct (arg_holds a r Na ltac:(lia)) as [E Ha]. destruct (doDir2_ok glob junk mal fs J G _ a Ha _ _ W (as_dir_last a)) as (N & HN). exists N. intros fuel Hf. unfold find_main2. cbn [Z.eqb Pos.eqb negb]. rewrite E. cbn [bind]. rewrite (isdir_ok _ _ Ha). cbn [bind]. unfold as_dir in *. destruct (last a 0 =? 47).
  - destruct (HN fuel Hf (mkSp [0] 0 0) []) as (evs & -> & S); [exists [], [0]; repeat split|reflexivity|]. cbn [bind]. eauto.
  - destruct (HN fuel Hf (mkSp [47; 0] 0 1) [47] slash_holds eq_refl) as (evs & -> & S). cbn [bind]. eauto.
Qed.
Print Assumptions c90_find2.
(** C90: what is listed does not depend on the order of evaluation: a tree has one listing *)
Theorem c90_listing_unique fs p ls : walk fs p ls -> forall ls', walk fs p ls' -> ls' = ls.
Proof.
  apply (walk_ind2 fs (fun p ls _ => forall ls', walk fs p ls' -> ls' = ls) (fun p es ls _ => forall ls', walk_entries fs p es ls' -> ls' = ls)).
  - intros p' es ls0 E W IH ls' H. inversion H; subst. f_equal. apply IH. congruence.
  - intros p' ls' H. now inversion H.
  - intros p' n es ls0 W IH ls' H. inversion H; subst. f_equal. now apply IH.
  - intros p' n es l1 l2 W1 IH1 W2 IH2 ls' H. inversion H; subst. f_equal; [now apply IH1|now apply IH2].
Qed.
Print Assumptions c90_listing_unique.
(** C90: any other number of arguments: the usage, and 1 *)
Theorem c90_usage glob junk mal fuel argc arg : argc <> 2 ->
  find_main glob junk mal fuel argc arg = Ret (1, [(1, usage)]) /\ find_main2 glob junk mal fuel argc arg = Ret (1, [(1, usage)]).
Proof. intros H. unfold find_main, find_main2. replace (argc =? 2) with false by lia. split; reflexivity. Qed.
Print Assumptions c90_usage.
(** C90: a directory glob cannot read, or one whose name is too long, is left out although find lists it;
    the program still returns 0 *)
Theorem c90_unreadable_refuted glob junk mal fuel a r : (forall k, zlen (junk k) = PATH_MAX) -> nz a -> last a 0 = 47 -> zlen (a ++ 0 :: r) < 2 ^ 62 ->
  (PATH_MAX <= zlen (escape a) + 3 \/ fst (glob (escape a ++ [42]) 130) <> 0) ->
  find_main glob junk mal (S fuel) 2 (a ++ 0 :: r) = Ret (0, []).
Proof.
  intros J Na Sl La H. unfold find_main. cbn [Z.eqb Pos.eqb negb]. destruct (arg_holds a r Na ltac:(lia)) as [-> Ha]. cbn [bind]. rewrite (isdir_ok _ _ Ha). cbn [bind]. rewrite Sl. cbn [Z.eqb Pos.eqb bind]. rewrite doDir_eq.
  assert (Ne : a <> []) by (intros ->; discriminate Sl). assert (Lz : zlen a < 2 ^ 62) by (revert La; zl; pose proof (zlen_nonneg r); lia).
  destruct (c70_pattern glob true (fun _ => true) (junk fuel) (Some (mkSp (a ++ 0 :: r) 0 (zlen a))) star a [42] (flf_all false)) as [P1 P2]; [apply J|right; right; eauto|apply star_holds|exact Na|repeat constructor; lia|discriminate|exact Lz|cbn; lia|].
  change FLF_INCLUDE_HIDDEN with (flf_val (flf_all false)). unfold sep in *. rewrite Sl in *. cbn [Z.eqb Pos.eqb app] in *. change (gflags (flf_all false)) with 130 in *. change (zlen [42]) with 1 in *.
  destruct (Z_lt_dec (zlen (escape a) + 1 + 2) PATH_MAX) as [X|X].
  - destruct H as [H|H]; [lia|]. rewrite (P1 X H). cbn [bind]. replace (_ =? 0) with false by lia. reflexivity.
  - rewrite P2 by lia. reflexivity.
Qed.
Print Assumptions c90_unreadable_refuted.
(** a/: the file b, the directory c with the file d and the empty directory .e *)
Definition c90_fs : files := fun p =>
  if list_eq_dec Z.eq_dec p [97; 47] then Some [([98], false); ([99], true)] else
  if list_eq_dec Z.eq_dec p [97; 47; 99; 47] then Some [([100], false); ([46; 101], true)] else
  if list_eq_dec Z.eq_dec p [97; 47; 99; 47; 46; 101; 47] then Some [] else None.
Definition c90_glob (pat : list Z) (fl : Z) : Z * list (list Z) :=
  if list_eq_dec Z.eq_dec pat [97; 47; 42] then (0, [[97; 47; 46; 47; 0]; [97; 47; 46; 46; 47; 0]; [97; 47; 98; 0]; [97; 47; 99; 47; 0]]) else
  if list_eq_dec Z.eq_dec pat [97; 47; 99; 47; 42] then (0, [[97; 47; 99; 47; 46; 47; 0]; [97; 47; 99; 47; 46; 46; 47; 0]; [97; 47; 99; 47; 100; 0]; [97; 47; 99; 47; 46; 101; 47; 0]]) else
  if list_eq_dec Z.eq_dec pat [97; 47; 99; 47; 46; 101; 47; 42] then (0, [[97; 47; 99; 47; 46; 101; 47; 46; 47; 0]; [97; 47; 99; 47; 46; 101; 47; 46; 46; 47; 0]]) else (3, []).
Definition c90_ls := [[97; 47]; [97; 47; 98]; [97; 47; 99; 47]; [97; 47; 99; 47; 100]; [97; 47; 99; 47; 46; 101; 47]].
Example c90_ex_walk : walk c90_fs (as_dir [97]) c90_ls.
Proof.
  assert (W3 : walk c90_fs [97; 47; 99; 47; 46; 101; 47] [[97; 47; 99; 47; 46; 101; 47]]) by (apply (walk_dir _ _ []); [reflexivity|constructor]).
  assert (W2 : walk c90_fs [97; 47; 99; 47] [[97; 47; 99; 47]; [97; 47; 99; 47; 100]; [97; 47; 99; 47; 46; 101; 47]]).
  { apply (walk_dir _ _ [([100], false); ([46; 101], true)]); [reflexivity|]. exact (walk_file _ [97; 47; 99; 47] [100] _ _ (walk_sub _ [97; 47; 99; 47] [46; 101] [] _ [] W3 (walk_nil _ _))). }
  apply (walk_dir _ _ [([98], false); ([99], true)]); [reflexivity|]. exact (walk_file _ [97; 47] [98] _ _ (walk_sub _ [97; 47] [99] [] _ [] W2 (walk_nil _ _))).
Qed.
Example c90_ex : (let* (r, e) := find_main c90_glob (fun _ => zrepeat 7 4096) (fun _ => 9) 3 2 [97; 0] in Ret (r, concat (map snd e))) = Ret (0, output c90_ls) /\
  (let* (r, e) := find_main2 c90_glob (fun _ => zrepeat 7 4096) (fun _ => 9) 3 2 [97; 47; 0] in Ret (r, concat (map snd e))) = Ret (0, output c90_ls).
Proof. split; vm_compute; reflexivity. Qed.
Example c90_ex_serves : serves c90_glob c90_fs.
Proof.
  intros p es H. unfold c90_fs in H. destruct (list_eq_dec Z.eq_dec p [97; 47]) as [->|]; [|destruct (list_eq_dec Z.eq_dec p [97; 47; 99; 47]) as [->|]; [|destruct (list_eq_dec Z.eq_dec p [97; 47; 99; 47; 46; 101; 47]) as [->|]; [|discriminate]]]; injection H as <-;
  (split; [repeat constructor; lia|]); (split; [cbn; unfold PATH_MAX; lia|]).
  - exists [[97; 47; 46; 47; 0]; [97; 47; 46; 46; 47; 0]; [97; 47; 98; 0]; [97; 47; 99; 47; 0]], [mkName [97] [46] true; mkName [97] [46; 46] true; mkName [97] [98] false; mkName [97] [99] true].
    split; [reflexivity|]. split; [|split; [repeat constructor|reflexivity]].
    repeat (first [apply Forall2_nil | apply Forall2_cons]); (split; [|split; [cbn; lia|exists []; reflexivity]]); (split; [|split; [|split]]); try (repeat constructor; unfold byte; lia); cbn; try lia; discriminate.
  - exists [[97; 47; 99; 47; 46; 47; 0]; [97; 47; 99; 47; 46; 46; 47; 0]; [97; 47; 99; 47; 100; 0]; [97; 47; 99; 47; 46; 101; 47; 0]], [mkName [97; 47; 99] [46] true; mkName [97; 47; 99] [46; 46] true; mkName [97; 47; 99] [100] false; mkName [97; 47; 99] [46; 101] true].
    split; [reflexivity|]. split; [|split; [repeat constructor|reflexivity]].
    repeat (first [apply Forall2_nil | apply Forall2_cons]); (split; [|split; [cbn; lia|exists []; reflexivity]]); (split; [|split; [|split]]); try (repeat constructor; unfold byte; lia); cbn; try lia; discriminate.
  - exists [[97; 47; 99; 47; 46; 101; 47; 46; 47; 0]; [97; 47; 99; 47; 46; 101; 47; 46; 46; 47; 0]], [mkName [97; 47; 99; 47; 46; 101] [46] true; mkName [97; 47; 99; 47; 46; 101] [46; 46] true].
    split; [reflexivity|]. split; [|split; [repeat constructor|reflexivity]].
    repeat (first [apply Forall2_nil | apply Forall2_cons]); (split; [|split; [cbn; lia|exists []; reflexivity]]); (split; [|split; [|split]]); try (repeat constructor; unfold byte; lia); cbn; try lia; discriminate.
Qed.
