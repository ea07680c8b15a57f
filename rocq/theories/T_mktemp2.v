(** C71, exactly: which names are tried, from which random numbers, and in which directories. *)
From Verif Require Import Base Cstr M_num S_num M_mktemp S_mktemp T_mktemp.

Lemma cypher_exact k : zread conv_cypher (k mod conv_cypher_len) = Ret (digit_char false (k mod 62)) /\ alnum (digit_char false (k mod 62)).
Proof.
  change conv_cypher_len with 62. pose proof (Z.mod_pos_bound k 62 ltac:(lia)) as H. set (i := k mod 62) in *. clearbody i.
  assert (F : Forall (fun j => zread conv_cypher j = Ret (digit_char false j)) (map Z.of_nat (seq 0 62))) by (repeat (constructor; [reflexivity|]); constructor).
  rewrite Forall_forall in F. split.
  - apply F. apply in_map_iff. exists (Z.to_nat i). split; [lia|]. apply in_seq. lia.
  - unfold digit_char, alnum. destruct (i <? 10) eqn:E1; [lia|]. destruct (i <? 36) eqn:E2; lia.
Qed.
Lemma draws_len rand : forall k n, zlen (draws rand k n) = Z.of_nat k.
Proof. induction k as [|k IH]; intros n; [reflexivity|]. cbn [draws]. rewrite zlen_cons, IH. lia. Qed.
Lemma draws_alnum rand : forall k n, Forall alnum (draws rand k n).
Proof. induction k as [|k IH]; intros n; constructor; [apply cypher_exact|apply IH]. Qed.
Lemma fill_exact rand : forall k p x r n, zlen x = Z.of_nat k -> fill rand k (p ++ x ++ r) (zlen p) n = Ret (p ++ draws rand k n ++ r).
Proof.
  induction k as [|k IH]; intros p x r n L.
  - apply zlen_0 in L. now subst x.
  - destruct x as [|c x]; [change (zlen (@nil Z)) with 0 in L; lia|]. rewrite zlen_cons in L. cbn [fill draws]. destruct (cypher_exact (rand n)) as [-> _]. cbn [bind app]. rewrite zwrite_at by reflexivity. cbn [bind].
    pose proof (IH (p ++ [digit_char false (rand n mod 62)]) x r (n + 1) ltac:(lia)) as E. rewrite <- !app_assoc, zlen_app in E. cbn [app] in E. change (zlen [_]) with 1 in E. exact E.
Qed.
Lemma loop_exact rand p r : nz p -> forall k x n tr e evs, zlen x = 6 -> e <> MkExist ->
  mkdtemp_loop rand (repeat MkExist k ++ e :: evs) (p ++ x ++ 0 :: r) (zlen p + 6) n tr =
  Ret (match e with MkOk => true | _ => false end, p ++ draws rand 6 (n + 6 * Z.of_nat k) ++ 0 :: r, n + 6 * (Z.of_nat k + 1), evs, tr ++ tries rand p (S k) n).
Proof.
  intros N. induction k as [|k IH]; intros x n tr e evs L E; cbn [repeat app mkdtemp_loop]; replace (zlen p + 6 - 6) with (zlen p) by lia; rewrite (fill_exact rand 6 p x (0 :: r) n L); cbn [bind];
    assert (Ny : nz (p ++ draws rand 6 n)) by (apply nz_app; split; [exact N|apply alnum_nz, draws_alnum]); rewrite app_assoc, strlen_0 by exact Ny; cbn [bind];
    change ((p ++ draws rand 6 n) ++ 0 :: r) with ([] ++ (p ++ draws rand 6 n) ++ 0 :: r); rewrite zreads_at by reflexivity; cbn [bind app].
  - rewrite <- app_assoc. change (n + 6 * Z.of_nat 0) with (n + 0). rewrite Z.add_0_r. change (n + 6 * (Z.of_nat 0 + 1)) with (n + 6). destruct e; try congruence; reflexivity.
  - rewrite <- app_assoc. rewrite (IH (draws rand 6 n) (n + 6) (tr ++ [p ++ draws rand 6 n]) e evs (draws_len rand 6 n) E). rewrite <- app_assoc. cbn [app].
    replace (n + 6 + 6 * Z.of_nat k) with (n + 6 * Z.of_nat (S k)) by lia. replace (n + 6 + 6 * (Z.of_nat k + 1)) with (n + 6 * (Z.of_nat (S k) + 1)) by lia. reflexivity.
Qed.
(** C71: every name tried has six fresh random characters in place of the last six of the template *)
Theorem c71_mkdtemp_exact : forall rand p x r n k e evs, nz (p ++ x) -> zlen x = 6 -> e <> MkExist ->
  ulz_mkdtemp rand (repeat MkExist k ++ e :: evs) (p ++ x ++ 0 :: r) n =
  Ret (match e with MkOk => true | _ => false end, p ++ draws rand 6 (n + 6 * Z.of_nat k) ++ 0 :: r, n + 6 * (Z.of_nat k + 1), evs, tries rand p (S k) n).
Proof.
  intros rand p x r n k e evs N L E. unfold ulz_mkdtemp. rewrite app_assoc, strlen_0 by exact N. cbn [bind]. rewrite zlen_app, L. pose proof (zlen_nonneg p). replace (_ <? 6) with false by lia.
  rewrite <- app_assoc. apply nz_app in N as [N _]. exact (loop_exact rand p r N k x n [] e evs L E).
Qed.
Print Assumptions c71_mkdtemp_exact.
Lemma nz_X : nz [88; 88; 88; 88; 88; 88]. Proof. repeat (constructor; [lia|]). constructor. Qed.
Lemma nz_shm_dir : nz shm_dir. Proof. repeat (constructor; [lia|]). constructor. Qed.
Lemma nz_tmp_dir : nz tmp_dir. Proof. repeat (constructor; [lia|]). constructor. Qed.
(** C71: mktempdir tries /dev/shm/ first and leaves the created path in the buffer *)
Theorem c71_shm_exact : forall rand pre pr b bufsize k evs, nz pre -> zlen pre < 2 ^ 63 -> 16 + zlen pre <= bufsize <= zlen b ->
  mktempdir rand (repeat MkExist k ++ MkOk :: evs) (pre ++ 0 :: pr) b bufsize =
  Ret (15 + zlen pre, shm_dir ++ pre ++ draws rand 6 (6 * Z.of_nat k) ++ 0 :: zdrop (16 + zlen pre) b, tries rand (shm_dir ++ pre) (S k) 0).
Proof.
  intros rand pre pr b bufsize k evs N L B. pose proof (zlen_nonneg pre). assert (Ld : zlen shm_dir = 9) by reflexivity.
  unfold mktempdir. rewrite strlen_0 by exact N. cbn [bind]. rewrite u64_id by lia. replace (_ <? _) with false by lia. change dev_shm with (shm_dir ++ [0]). rewrite gen_ok by (apply nz_shm_dir || assumption || lia). cbn [bind].
  rewrite (c71_mkdtemp_exact rand (shm_dir ++ pre)) by (reflexivity || discriminate || (rewrite !nz_app; split; [split; [apply nz_shm_dir|exact N]|apply nz_X])). cbn [bind].
  rewrite Ld. replace (9 + zlen pre + 6) with (15 + zlen pre) by lia. replace (9 + zlen pre + 7) with (16 + zlen pre) by lia. rewrite <- app_assoc. reflexivity.
Qed.
Print Assumptions c71_shm_exact.
(** C71: if /dev/shm/ fails, /tmp/; the rest of the buffer is what the first attempt left there *)
Theorem c71_tmp_exact : forall rand pre pr b bufsize k k' e evs, nz pre -> zlen pre < 2 ^ 63 -> 16 + zlen pre <= bufsize <= zlen b -> e <> MkExist ->
  let n := 6 * (Z.of_nat k + 1) in
  mktempdir rand (repeat MkExist k ++ MkFail :: repeat MkExist k' ++ e :: evs) (pre ++ 0 :: pr) b bufsize =
  Ret (match e with MkOk => 11 + zlen pre | _ => 0 end,
       tmp_dir ++ pre ++ draws rand 6 (n + 6 * Z.of_nat k') ++ 0 :: zdrop (12 + zlen pre) (shm_dir ++ pre ++ draws rand 6 (6 * Z.of_nat k) ++ 0 :: zdrop (16 + zlen pre) b),
       tries rand (shm_dir ++ pre) (S k) 0 ++ tries rand (tmp_dir ++ pre) (S k') n).
Proof.
  intros rand pre pr b bufsize k k' e evs N L B He n. pose proof (zlen_nonneg pre). assert (Ld : zlen shm_dir = 9) by reflexivity. assert (Lt : zlen tmp_dir = 5) by reflexivity.
  unfold mktempdir. rewrite strlen_0 by exact N. cbn [bind]. rewrite u64_id by lia. replace (_ <? _) with false by lia. change dev_shm with (shm_dir ++ [0]). rewrite gen_ok by (apply nz_shm_dir || assumption || lia). cbn [bind].
  rewrite (c71_mkdtemp_exact rand (shm_dir ++ pre)) by (reflexivity || discriminate || (rewrite !nz_app; split; [split; [apply nz_shm_dir|exact N]|apply nz_X])). cbn [bind]. rewrite !Z.add_0_l.
  change tmp with (tmp_dir ++ [0]). pose proof (draws_len rand 6 (6 * Z.of_nat k)) as Dl.
  rewrite gen_ok by (apply nz_tmp_dir || assumption || (rewrite !zlen_app, zlen_cons, zlen_zdrop by lia; lia)). cbn [bind].
  rewrite (c71_mkdtemp_exact rand (tmp_dir ++ pre)) by (reflexivity || assumption || (rewrite !nz_app; split; [split; [apply nz_tmp_dir|exact N]|apply nz_X])). cbn [bind]. fold n.
  rewrite Ld, Lt. replace (9 + zlen pre + 7) with (16 + zlen pre) by lia. replace (5 + zlen pre + 6) with (11 + zlen pre) by lia. replace (5 + zlen pre + 7) with (12 + zlen pre) by lia. rewrite <- !app_assoc.
  destruct e; [reflexivity|congruence|reflexivity].
Qed.
Print Assumptions c71_tmp_exact.
Example c71_exact_ex : let rand k := k * 7 in
  tries rand [97] 2 0 = [[97; 48; 55; 69; 76; 83; 90]; [97; 103; 110; 117; 49; 56; 70]] /\
  mktempdir rand [MkExist; MkFail; MkOk] [97; 0] (zrepeat 9 18) 17 =
  Ret (12, [47; 116; 109; 112; 47; 97; 77; 84; 97; 104; 111; 118; 0; 49; 56; 70; 0; 9],
       [shm_dir ++ [97; 48; 55; 69; 76; 83; 90]; shm_dir ++ [97; 103; 110; 117; 49; 56; 70]; tmp_dir ++ [97; 77; 84; 97; 104; 111; 118]]).
Proof. split; vm_compute; reflexivity. Qed.
