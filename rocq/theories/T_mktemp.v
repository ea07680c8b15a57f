(** C71: ulz_mkdtemp and mktempdir. *)
From Verif Require Import Base Cstr M_num M_mktemp.

Definition alnum (c : Z) : Prop := 48 <= c <= 57 \/ 65 <= c <= 90 \/ 97 <= c <= 122.
Definition six (x : list Z) : Prop := zlen x = 6 /\ Forall alnum x.

Lemma cypher_alnum c : In c conv_cypher -> c = 0 \/ alnum c.
Proof. assert (F : Forall (fun c => c = 0 \/ alnum c) conv_cypher) by (unfold alnum; repeat (constructor; [lia|]); constructor). rewrite Forall_forall in F. auto. Qed.
Lemma cypher_read k : exists c, zread conv_cypher (k mod conv_cypher_len) = Ret c /\ alnum c.
Proof.
  change conv_cypher_len with 62. pose proof (Z.mod_pos_bound k 62 ltac:(lia)) as H. set (i := k mod 62) in *. clearbody i. exists (znth 0 conv_cypher i). split; [apply zread_ok; change (zlen conv_cypher) with 63; lia|].
  assert (F : Forall alnum (ztake 62 conv_cypher)) by (unfold alnum; repeat (constructor; [lia|]); constructor). rewrite Forall_forall in F.
  replace (znth 0 conv_cypher i) with (znth 0 (ztake 62 conv_cypher) i); [apply F, znth_In; change (zlen (ztake 62 conv_cypher)) with 62; lia|].
  change conv_cypher with (ztake 62 conv_cypher ++ [0]) at 2. symmetry. apply znth_app1. change (zlen (ztake 62 conv_cypher)) with 62. lia.
Qed.
Lemma fill_ok rand : forall k p x r n, zlen x = Z.of_nat k -> exists y, zlen y = zlen x /\ Forall alnum y /\ fill rand k (p ++ x ++ r) (zlen p) n = Ret (p ++ y ++ r).
Proof.
  induction k as [|k IH]; intros p x r n L.
  - apply zlen_0 in L. subst x. exists []. repeat split; constructor.
  - destruct x as [|c x]; [change (zlen (@nil Z)) with 0 in L; lia|]. rewrite zlen_cons in L. cbn [fill]. destruct (cypher_read (rand n)) as (d & -> & D). cbn [bind app]. rewrite zwrite_at by reflexivity. cbn [bind].
    destruct (IH (p ++ [d]) x r (n + 1) ltac:(lia)) as (y & Ly & Fy & E). rewrite <- !app_assoc, zlen_app in E. cbn [app] in E. change (zlen [d]) with 1 in E. rewrite E. exists (d :: y). split; [zl; lia|]. split; [now constructor|]. reflexivity.
Qed.
Lemma alnum_nz x : Forall alnum x -> nz x.
Proof. apply Forall_impl. unfold alnum. intros. lia. Qed.
Lemma loop_ok rand p r : nz p -> forall k x n tr e evs, zlen x = 6 -> e <> MkExist ->
  exists ys y, length ys = k /\ Forall six ys /\ six y /\
    mkdtemp_loop rand (repeat MkExist k ++ e :: evs) (p ++ x ++ 0 :: r) (zlen p + 6) n tr =
    Ret (match e with MkOk => true | _ => false end, p ++ y ++ 0 :: r, n + 6 * Z.of_nat (k + 1), evs, tr ++ map (app p) (ys ++ [y])).
Proof.
  intros N. induction k as [|k IH]; intros x n tr e evs L E; cbn [repeat app mkdtemp_loop]; replace (zlen p + 6 - 6) with (zlen p) by lia; destruct (fill_ok rand 6 p x (0 :: r) n L) as (y & Ly & Fy & ->); cbn [bind];
    assert (Ny : nz (p ++ y)) by (apply nz_app; split; [exact N|now apply alnum_nz]); rewrite app_assoc, strlen_0 by exact Ny; cbn [bind]; change ((p ++ y) ++ 0 :: r) with ([] ++ (p ++ y) ++ 0 :: r); rewrite zreads_at by reflexivity; cbn [bind app].
  - exists [], y. split; [reflexivity|]. split; [constructor|]. split; [split; [lia|exact Fy]|]. rewrite <- app_assoc. destruct e; try congruence; reflexivity.
  - rewrite <- app_assoc. destruct (IH y (n + 6) (tr ++ [p ++ y]) e evs ltac:(lia) E) as (ys & z & Lys & Fys & Sz & ->). exists (y :: ys), z. split; [cbn; lia|]. split; [constructor; [split; [lia|exact Fy]|exact Fys]|]. split; [exact Sz|]. cbn [map app]. rewrite <- !app_assoc. cbn [app]. replace (n + 6 + 6 * Z.of_nat (k + 1)) with (n + 6 * Z.of_nat (S k + 1)) by lia. reflexivity.
Qed.
(** C71: ulz_mkdtemp of a template with at least six characters: it tries paths that differ from it in
    the last six characters only, again after every EEXIST, and stops at the first other result, of
    which the last path stays in the buffer *)
Theorem c71_mkdtemp rand p x r n k e evs : nz (p ++ x) -> zlen x = 6 -> e <> MkExist ->
  exists ys y, length ys = k /\ Forall six ys /\ six y /\
    ulz_mkdtemp rand (repeat MkExist k ++ e :: evs) (p ++ x ++ 0 :: r) n =
    Ret (match e with MkOk => true | _ => false end, p ++ y ++ 0 :: r, n + 6 * Z.of_nat (k + 1), evs, map (app p) (ys ++ [y])).
Proof.
  intros N L E. unfold ulz_mkdtemp. rewrite app_assoc, strlen_0 by exact N. cbn [bind]. rewrite zlen_app, L. pose proof (zlen_nonneg p). replace (_ <? 6) with false by lia. rewrite <- app_assoc. apply nz_app in N as [N _].
  exact (loop_ok rand p r N k x n [] e evs L E).
Qed.
Print Assumptions c71_mkdtemp.
(** C71: a shorter template is refused, without a call of mkdir *)
Theorem c71_mkdtemp_short rand s r n evs : nz s -> zlen s < 6 -> ulz_mkdtemp rand evs (s ++ 0 :: r) n = Ret (false, s ++ 0 :: r, n, evs, []).
Proof. intros N L. unfold ulz_mkdtemp. rewrite strlen_0 by exact N. cbn [bind]. now replace (_ <? 6) with true by lia. Qed.
Print Assumptions c71_mkdtemp_short.
(** with EEXIST forever it does not return *)
Theorem c71_mkdtemp_forever rand p x r n k : nz (p ++ x) -> zlen x = 6 -> ulz_mkdtemp rand (repeat MkExist k) (p ++ x ++ 0 :: r) n = Fuel.
Proof.
  intros N L. unfold ulz_mkdtemp. rewrite app_assoc, strlen_0 by exact N. cbn [bind]. rewrite zlen_app, L. pose proof (zlen_nonneg p). replace (_ <? 6) with false by lia. rewrite <- app_assoc. apply nz_app in N as [N _].
  generalize (@nil (list Z)) as tr. revert x n L. induction k as [|k IH]; intros x n L tr; [reflexivity|]. cbn [repeat mkdtemp_loop]. replace (zlen p + 6 - 6) with (zlen p) by lia. destruct (fill_ok rand 6 p x (0 :: r) n L) as (y & Ly & Fy & ->). cbn [bind].
  assert (Ny : nz (p ++ y)) by (apply nz_app; split; [exact N|now apply alnum_nz]). rewrite app_assoc, strlen_0 by exact Ny. cbn [bind]. change ((p ++ y) ++ 0 :: r) with ([] ++ (p ++ y) ++ 0 :: r). rewrite zreads_at by reflexivity. cbn [bind app]. rewrite <- app_assoc. apply IH. lia.
Qed.
Print Assumptions c71_mkdtemp_forever.

Lemma gen_ok d pre pr b : nz d -> nz pre -> zlen d + zlen pre + 7 <= zlen b -> gen_fn b (pre ++ 0 :: pr) (zlen pre) (d ++ [0]) = Ret (zlen d + zlen pre + 6, (d ++ pre) ++ [88; 88; 88; 88; 88; 88] ++ 0 :: zdrop (zlen d + zlen pre + 7) b).
Proof.
  intros Nd Np L. pose proof (zlen_nonneg d). pose proof (zlen_nonneg pre). unfold gen_fn. rewrite strlen_0 by exact Nd. cbn [bind]. change (d ++ [0]) with ([] ++ d ++ [0]). rewrite zreads_at by reflexivity. cbn [bind].
  destruct (zsplit (zlen d) b ltac:(lia)) as (b1 & b2 & -> & L1). rewrite zlen_app in L. change (b1 ++ b2) with ([] ++ b1 ++ b2) at 1. rewrite zwrites_at by (reflexivity || lia). cbn [bind app].
  change (pre ++ 0 :: pr) with ([] ++ pre ++ 0 :: pr). rewrite zreads_at by reflexivity. cbn [bind]. destruct (zsplit (zlen pre) b2 ltac:(lia)) as (b3 & b4 & -> & L3). rewrite zlen_app in L. rewrite zwrites_at by lia. cbn [bind].
  destruct (zsplit 7 b4 ltac:(lia)) as (b5 & b6 & -> & L5). rewrite app_assoc. rewrite zwrites_at by (rewrite ?zlen_app; (lia || (cbn; lia))). cbn [bind]. do 3 f_equal. cbn [app]. do 7 f_equal.
  rewrite !app_assoc. rewrite zdrop_app2 by (rewrite !zlen_app; lia). replace (zlen d + zlen pre + 7 - _) with 0 by (rewrite !zlen_app; lia). reflexivity.
Qed.
(** what a directory's attempt ends with *)
Definition attempt (k : nat) (e : mkres) : list mkres := repeat MkExist k ++ [e].
(** C71: a buffer that is too small is left alone *)
Theorem c71_too_small rand evs pre pr b bufsize : nz pre -> zlen pre < 2 ^ 63 -> bufsize < 16 + zlen pre -> mktempdir rand evs (pre ++ 0 :: pr) b bufsize = Ret (0, b, []).
Proof. intros N L B. pose proof (zlen_nonneg pre). unfold mktempdir. rewrite strlen_0 by exact N. cbn [bind]. rewrite u64_id by lia. now replace (_ <? _) with true by lia. Qed.
Print Assumptions c71_too_small.
Lemma nz_shm : nz (removelast dev_shm). Proof. repeat (constructor; [lia|]). constructor. Qed.
Lemma nz_tmp : nz (removelast tmp). Proof. repeat (constructor; [lia|]). constructor. Qed.
(** C71: /dev/shm first; the created path, NUL-terminated, is in the buffer and its length returned;
    the bytes behind it are unchanged *)
Theorem c71_shm rand pre pr b bufsize k evs : nz pre -> zlen pre < 2 ^ 63 -> 16 + zlen pre <= bufsize <= zlen b ->
  exists ys y, length ys = k /\ Forall six ys /\ six y /\ let path x := removelast dev_shm ++ pre ++ x in
    mktempdir rand (attempt k MkOk ++ evs) (pre ++ 0 :: pr) b bufsize =
    Ret (zlen (path y), path y ++ 0 :: zdrop (zlen (path y) + 1) b, map path (ys ++ [y])).
Proof.
  intros N L B. pose proof (zlen_nonneg pre). set (d := removelast dev_shm). assert (Ld : zlen d = 9) by reflexivity.
  assert (Nd : nz (d ++ pre)) by (apply nz_app; split; [apply nz_shm|exact N]).
  assert (Ny : nz ((d ++ pre) ++ [88; 88; 88; 88; 88; 88])) by (apply nz_app; split; [exact Nd|repeat (constructor; [lia|]); constructor]).
  destruct (c71_mkdtemp rand (d ++ pre) [88; 88; 88; 88; 88; 88] (zdrop (zlen d + zlen pre + 7) b) 0 k MkOk evs Ny eq_refl ltac:(discriminate)) as (ys & y & Lys & Fys & Sy & E). exists ys, y. split; [exact Lys|]. split; [exact Fys|]. split; [exact Sy|]. cbv zeta.
  unfold mktempdir. rewrite strlen_0 by exact N. cbn [bind]. rewrite u64_id by lia. replace (_ <? _) with false by lia. change dev_shm with (d ++ [0]). rewrite gen_ok by (apply nz_shm || assumption || lia). cbn [bind].
  assert (Ea : attempt k MkOk ++ evs = repeat MkExist k ++ MkOk :: evs) by (unfold attempt; now rewrite <- app_assoc). rewrite Ea, E. cbn [bind]. destruct Sy as [Sy _].
  assert (Lp : zlen (d ++ pre ++ y) = zlen d + zlen pre + 6) by (rewrite !zlen_app; lia). rewrite Lp. replace (zlen d + zlen pre + 6 + 1) with (zlen d + zlen pre + 7) by lia. rewrite <- !app_assoc. rewrite (map_ext (app (d ++ pre)) (fun x => d ++ pre ++ x)) by (intros; now rewrite <- app_assoc). reflexivity.
Qed.
Print Assumptions c71_shm.
(** C71: then /tmp, if every attempt in /dev/shm fails; 0 if both do; the buffer keeps its length *)
Theorem c71_tmp rand pre pr b bufsize k k' e evs : nz pre -> zlen pre < 2 ^ 63 -> 16 + zlen pre <= bufsize <= zlen b -> e <> MkExist ->
  exists xs ys y b', length xs = S k /\ Forall six xs /\ length ys = k' /\ Forall six ys /\ six y /\
    let path x := removelast tmp ++ pre ++ x in
    zlen b' = zlen b /\ ztake (zlen (path y) + 1) b' = path y ++ [0] /\ zdrop (16 + zlen pre) b' = zdrop (16 + zlen pre) b /\
    mktempdir rand (attempt k MkFail ++ attempt k' e ++ evs) (pre ++ 0 :: pr) b bufsize =
    Ret (match e with MkOk => zlen (path y) | _ => 0 end, b', map (fun x => removelast dev_shm ++ pre ++ x) xs ++ map path (ys ++ [y])).
Proof.
  intros N L B He. pose proof (zlen_nonneg pre). set (d := removelast dev_shm). assert (Ld : zlen d = 9) by reflexivity. set (t := removelast tmp). assert (Lt : zlen t = 5) by reflexivity.
  assert (NX : nz [88; 88; 88; 88; 88; 88]) by (repeat (constructor; [lia|]); constructor).
  assert (Nd : nz ((d ++ pre) ++ [88; 88; 88; 88; 88; 88])) by (rewrite !nz_app; split; [split; [apply nz_shm|exact N]|exact NX]).
  assert (Nt : nz ((t ++ pre) ++ [88; 88; 88; 88; 88; 88])) by (rewrite !nz_app; split; [split; [apply nz_tmp|exact N]|exact NX]).
  destruct (c71_mkdtemp rand (d ++ pre) [88; 88; 88; 88; 88; 88] (zdrop (zlen d + zlen pre + 7) b) 0 k MkFail (attempt k' e ++ evs) Nd eq_refl ltac:(discriminate)) as (xs & x & Lxs & Fxs & Sx & E1).
  set (b1 := (d ++ pre) ++ x ++ 0 :: zdrop (zlen d + zlen pre + 7) b) in *. assert (Sx' := Sx). destruct Sx' as [Lx _].
  assert (Lb1 : zlen b1 = zlen b) by (unfold b1; rewrite !zlen_app, zlen_cons, zlen_zdrop by lia; lia).
  destruct (c71_mkdtemp rand (t ++ pre) [88; 88; 88; 88; 88; 88] (zdrop (zlen t + zlen pre + 7) b1) (0 + 6 * Z.of_nat (k + 1)) k' e evs Nt eq_refl He) as (ys & y & Lys & Fys & Sy & E2).
  set (b2 := (t ++ pre) ++ y ++ 0 :: zdrop (zlen t + zlen pre + 7) b1) in *. destruct Sy as [Ly Fy].
  exists (xs ++ [x]), ys, y, b2. split; [rewrite app_length; cbn; lia|]. split; [apply Forall_app; split; [exact Fxs|now constructor]|]. split; [exact Lys|]. split; [exact Fys|]. split; [now split|]. cbv zeta.
  split; [unfold b2; rewrite !zlen_app, zlen_cons, zlen_zdrop by lia; lia|]. split.
  { unfold b2. assert (Eb : (t ++ pre) ++ y ++ 0 :: zdrop (zlen t + zlen pre + 7) b1 = ((t ++ pre ++ y) ++ [0]) ++ zdrop (zlen t + zlen pre + 7) b1) by (rewrite <- !app_assoc; reflexivity). rewrite Eb. replace (zlen (t ++ pre ++ y) + 1) with (zlen ((t ++ pre ++ y) ++ [0])) by (rewrite !zlen_app; reflexivity). apply ztake_app_exact. }
  split.
  { assert (Q : forall (h : list Z) q m, zlen h + 1 = m -> m <= 16 + zlen pre -> zdrop (16 + zlen pre) (h ++ 0 :: zdrop m q) = zdrop (16 + zlen pre) q).
    { intros h q m Hm Hle. pose proof (zlen_nonneg h). change (0 :: zdrop m q) with ([0] ++ zdrop m q). rewrite app_assoc. rewrite zdrop_app2 by (rewrite zlen_app; change (zlen [0]) with 1; lia). rewrite zdrop_zdrop by (rewrite ?zlen_app; change (zlen [0]) with 1; lia). f_equal. rewrite zlen_app. change (zlen [0]) with 1. lia. }
    unfold b2. rewrite app_assoc. rewrite Q by (rewrite ?zlen_app; lia). unfold b1. rewrite app_assoc. apply Q; rewrite ?zlen_app; lia. }
  unfold mktempdir. rewrite strlen_0 by exact N. cbn [bind]. rewrite u64_id by lia. replace (_ <? _) with false by lia. change dev_shm with (d ++ [0]). rewrite gen_ok by (apply nz_shm || assumption || lia). cbn [bind].
  assert (Ea : attempt k MkFail ++ attempt k' e ++ evs = repeat MkExist k ++ MkFail :: attempt k' e ++ evs) by (unfold attempt; now rewrite <- app_assoc). rewrite Ea, E1. cbn [bind]. change tmp with (t ++ [0]). rewrite gen_ok by (apply nz_tmp || assumption || lia). cbn [bind].
  assert (Ea' : attempt k' e ++ evs = repeat MkExist k' ++ e :: evs) by (unfold attempt; now rewrite <- app_assoc). rewrite Ea', E2. cbn [bind].
  assert (Lp : zlen (t ++ pre ++ y) = zlen t + zlen pre + 6) by (rewrite !zlen_app; lia). rewrite Lp. rewrite (map_ext (app (d ++ pre)) (fun x => d ++ pre ++ x)), (map_ext (app (t ++ pre)) (fun x => t ++ pre ++ x)) by (intros; now rewrite <- app_assoc). destruct e; [|congruence|]; reflexivity.
Qed.
Print Assumptions c71_tmp.
Example c71_ex : let rand k := k * 7 in
  mktempdir rand [MkExist; MkOk] [97; 98; 0] (zrepeat 9 20) 18 =
    Ret (17, [47; 100; 101; 118; 47; 115; 104; 109; 47; 97; 98; 103; 110; 117; 49; 56; 70; 0; 9; 9], [[47; 100; 101; 118; 47; 115; 104; 109; 47; 97; 98; 48; 55; 69; 76; 83; 90]; [47; 100; 101; 118; 47; 115; 104; 109; 47; 97; 98; 103; 110; 117; 49; 56; 70]]) /\
  mktempdir rand [MkOk] [97; 98; 0] (zrepeat 9 20) 17 = Ret (0, zrepeat 9 20, []) /\
  (let* (r, b, t) := mktempdir rand [MkFail; MkExist; MkOk] [97; 98; 0] (zrepeat 9 20) 18 in Ret (r, ztake 14 b)) = Ret (13, [47; 116; 109; 112; 47; 97; 98; 77; 84; 97; 104; 111; 118; 0]).
Proof. repeat split; vm_compute; reflexivity. Qed.
