(** C95: fileparser_readline_userbuf when read(2) delivers less than there is. *)
From Verif Require Import Base M_fileparser S_fileparser P_fileparser S_fpshort M_fpshort.

Lemma readline_long_enough k p buf n : n <= k -> readline_short k p buf n = readline_userbuf None None p buf n.
Proof. intros H. unfold readline_short, readline_userbuf, sys_read_short, sys_read. rewrite Z.min_r by lia. reflexivity. Qed.
Lemma line_seen l b g n : zlen b = n -> zlen l < n -> ztake (zlen l + 1) b = l ++ [0] -> zreads (b ++ g) 0 (zlen l + 1) = Ret (l ++ [0]).
Proof.
  intros L1 L2 T. zpos. destruct (zsplit (zlen l + 1) b) as (x & y & -> & Lx); [lia|].
  rewrite <- Lx in T. rewrite ztake_app_exact in T. subst x. rewrite <- app_assoc. now apply (zreads_at [] (l ++ [0])).
Qed.
(** the read gives the line and its LF *)
Lemma short_lf k p a l r b g n : ffd p <> 0 -> fcont p = a ++ l ++ 10 :: r -> foff p = zlen a -> 0 <= fpos p -> fpos p + zlen l + 1 < 2 ^ 64 ->
  no_lf l -> zlen b = n -> zlen l < n -> zlen l < k ->
  exists b', readline_short k p (b ++ g) n = Ret (0, mkFp (fpos p + zlen l + 1) (zlen l) (ffd p) (fcont p) (fpos p + zlen l + 1), b' ++ g) /\ zlen b' = n /\ ztake (zlen l + 1) b' = l ++ [0].
Proof.
  intros Hfd Ea Eo P0 P1 Nl Lb Ll Lk. unfold readline_short, sys_read_short. replace (ffd p =? 0) with false by lia. rewrite (at_rest_off _ _ _ Ea Eo). zpos.
  set (d := ztake (Z.min k n) (l ++ 10 :: r)).
  assert (D : exists q, d = l ++ 10 :: q).
  { unfold d. rewrite ztake_app2 by lia. exists (ztake (Z.min k n - zlen l - 1) r). f_equal. change (10 :: r) with ([10] ++ r). rewrite ztake_app2 by (change (zlen [10]) with 1; lia).
    change (zlen [10]) with 1. reflexivity. }
  destruct D as (q & D). assert (Ld : zlen d <= n). { unfold d. rewrite zlen_ztake_min; lia. }
  rewrite D in *. clearbody d. revert Ld. zl. intros Ld. zpos.
  destruct (zsplit (zlen (l ++ 10 :: q)) b) as (b1 & b2 & -> & L1); [zl; lia|].
  rewrite <- app_assoc. pose proof (zwrites_at [] b1 (b2 ++ g) (l ++ 10 :: q) 0 eq_refl L1) as W. cbn [app] in W. rewrite W. cbn [bind].
  replace (_ =? 0) with false by (zl; lia). cbn [fpos flen ffd fcont foff set_off].
  pose proof (find_lf_some l [] q (b2 ++ g) (Z.to_nat (zlen l + (1 + zlen q))) Nl) as F. cbn [app] in F. change (zlen (@nil Z)) with 0 in F.
  rewrite <- app_assoc. cbn [app]. rewrite F by (unfold zlen; lia). cbn [bind]. rewrite Z.add_0_l.
  rewrite zwrite_at by auto. cbn [bind seek_ret]. rewrite (u64_id (zlen l + 1)), u64_id by lia. rewrite Z.add_assoc.
  exists (l ++ 0 :: q ++ b2).
  split; [rewrite <- !app_assoc; cbn [app]; rewrite <- !app_assoc; reflexivity|]. split; [revert Lb L1; zl; lia|].
  change (l ++ 0 :: q ++ b2) with (l ++ [0] ++ q ++ b2). rewrite app_assoc. replace (zlen l + 1) with (zlen (l ++ [0])) by (zl; lia). apply ztake_app_exact.
Qed.
(** the read gives c only, and no LF is in it *)
Lemma short_part k p a c r b g n : ffd p <> 0 -> fcont p = a ++ c ++ r -> foff p = zlen a -> 0 <= fpos p -> fpos p + zlen c + 1 < 2 ^ 64 ->
  no_lf c -> c <> [] -> zlen b = n -> zlen c < n -> (zlen c = k \/ zlen c < k /\ r = []) ->
  exists b', readline_short k p (b ++ g) n = Ret (0, mkFp (fpos p + zlen c + 1) (zlen c) (ffd p) (fcont p) (foff p + zlen c), b' ++ g) /\ zlen b' = n /\ ztake (zlen c + 1) b' = c ++ [0].
Proof.
  intros Hfd Ea Eo P0 P1 Nl Ne Lb Ll Lk. unfold readline_short, sys_read_short. replace (ffd p =? 0) with false by lia. rewrite (at_rest_off _ _ _ Ea Eo). zpos.
  assert (D : ztake (Z.min k n) (c ++ r) = c). { destruct Lk as [<-|[Q ->]]; [rewrite Z.min_l by lia; apply ztake_app_exact|rewrite app_nil_r; apply ztake_all; lia]. }
  rewrite D. assert (0 < zlen c) by (destruct c; [congruence|zl; zpos; lia]).
  destruct (zsplit (zlen c) b) as (b1 & b2 & -> & L1); [lia|]. revert Lb. zl. intros Lb. destruct b2 as [|x b2]; [revert Lb; zl; lia|].
  rewrite <- app_assoc. pose proof (zwrites_at [] b1 ((x :: b2) ++ g) c 0 eq_refl L1) as W. cbn [app] in W |- *. rewrite W. cbn [bind].
  replace (zlen c =? 0) with false by lia. cbn [fpos flen ffd fcont foff set_off].
  pose proof (find_lf_none c [] (x :: b2 ++ g) Nl) as F. cbn [app] in F. change (zlen (@nil Z)) with 0 in F.
  replace (Z.to_nat (zlen c)) with (length c) by (unfold zlen; lia). rewrite F. cbn [bind].
  replace (zlen c <? n) with true by lia. rewrite zwrite_at by auto. cbn [bind]. rewrite (u64_id (zlen c + 1)), u64_id by lia. rewrite Z.add_assoc.
  exists (c ++ 0 :: b2). split; [rewrite <- !app_assoc; reflexivity|]. split; [revert Lb; zl; lia|].
  change (c ++ 0 :: b2) with (c ++ [0] ++ b2). rewrite app_assoc. replace (zlen c + 1) with (zlen (c ++ [0])) by (zl; lia). apply ztake_app_exact.
Qed.
Lemma short_eof k p buf n : ffd p <> 0 -> foff p = zlen (fcont p) -> 0 <= n -> 0 <= k -> readline_short k p buf n = Ret (-2, p, buf).
Proof.
  intros Hfd E Hn Hk. unfold readline_short, sys_read_short. replace (ffd p =? 0) with false by lia. rewrite E, zdrop_all by lia.
  replace (ztake (Z.min k n) []) with (@nil Z) by (unfold ztake; now rewrite firstn_nil). pose proof (zwrites_at [] [] buf [] 0 eq_refl eq_refl) as W. cbn [app] in W. rewrite W. cbn [bind]. change (zlen (@nil Z)) with 0. rewrite Z.add_0_r, <- E. cbn [Z.eqb]. destruct p. reflexivity.
Qed.
Lemma eofs : forall ks p buf n, ffd p <> 0 -> foff p = zlen (fcont p) -> 0 <= n -> Forall (fun k => 0 <= k) ks -> calls_short ks p buf n = Ret (repeat eof (length ks)).
Proof. induction ks as [|k ks IH]; intros p buf n F E Hn H; [reflexivity|]. inversion H; subst. cbn [calls_short]. rewrite short_eof by assumption. cbn [bind Z.eqb]. rewrite IH by assumption. reflexivity. Qed.
Lemma lines_ok : forall ks r ls, file_lines r ls -> forall k2 p a b g n, ffd p <> 0 -> fcont p = a ++ r -> foff p = zlen a -> (r <> [] -> fpos p = zlen a) -> zlen (fcont p) < 2 ^ 63 ->
  zlen b = n -> 0 <= n -> Forall (fun l => zlen l < n) ls -> Forall2 (fun l k => zlen l < k) ls ks -> Forall (fun k => 0 <= k) k2 ->
  calls_short (ks ++ k2) p (b ++ g) n = Ret (map got ls ++ repeat eof (length k2)).
Proof.
  intros ks r ls FL. revert ks. induction FL as [|l Hl Nl|l r ls Nl FL IH]; intros ks k2 p a b g n Hfd Ea Eo Hp Lc Lb Hn F F2 K2.
  - inversion F2; subst. cbn [app map]. apply eofs; auto. rewrite Ea, app_nil_r. exact Eo.
  - inversion F2 as [|x k y ks' Lk F3]; subst. inversion F3; subst. inversion F as [|x y Ll _]; subst. specialize (Hp Hl). rewrite Ea in Lc. revert Lc. zl. intros Lc. zpos.
    cbn [app calls_short map]. destruct (short_part k p a l [] b g _ Hfd ltac:(now rewrite app_nil_r) Eo ltac:(lia) ltac:(lia) Nl Hl eq_refl Ll ltac:(now right)) as (b' & E & L' & T). rewrite E. cbn [bind Z.eqb flen].
    rewrite (line_seen l b' g _ L' Ll T). cbn [bind]. rewrite eofs; [reflexivity|exact Hfd| |lia|exact K2]. cbn [foff fcont]. rewrite Ea. zl. lia.
  - inversion F2 as [|x k y ks' Lk F3]; subst. inversion F as [|x y Ll F']; subst. specialize (Hp ltac:(destruct l; discriminate)). pose proof Lc as Lc'. rewrite Ea in Lc'. revert Lc'. zl. intros Lc'. zpos.
    cbn [app calls_short map]. destruct (short_lf k p a l r b g _ Hfd Ea Eo ltac:(lia) ltac:(lia) Nl eq_refl Ll Lk) as (b' & E & L' & T). rewrite E. cbn [bind Z.eqb flen].
    rewrite (line_seen l b' g _ L' Ll T). cbn [bind]. rewrite (IH ks' k2 _ (a ++ l ++ [10]) b' g (zlen b)); [reflexivity|exact Hfd|cbn [fcont]; rewrite Ea, <- !app_assoc; reflexivity|cbn [foff]; zl; lia|cbn [fpos]; intros _; zl; lia|exact Lc|exact L'|lia|exact F'|exact F3|exact K2].
Qed.

(** C95: the lines come out right as long as each read delivers its whole line with the line feed (or a byte more
    than the last line would need) *)
Theorem c95_lines_partial : forall fd junk content ls ks k2 b g n, fd <> 0 -> zlen content < 2 ^ 63 -> file_lines content ls -> zlen b = n -> 0 <= n ->
  Forall (fun l => zlen l < n) ls -> Forall2 (fun l k => zlen l < k) ls ks -> Forall (fun k => 0 <= k) k2 ->
  calls_short (ks ++ k2) (fileparser_open fd junk content) (b ++ g) n = Ret (map got ls ++ repeat eof (length k2)).
Proof. intros. eapply (lines_ok ks content ls) with (a := []); eauto. Qed.
Print Assumptions c95_lines_partial.
(** C95: a read that delivers only a part a of the line a ++ c: the line comes in two, and the byte x after its line
    feed is never seen by anyone *)
Theorem c95_short_read_refuted : forall fd junk a c x r ls ks k2 k b g n, fd <> 0 -> zlen (a ++ c ++ 10 :: x :: r) < 2 ^ 63 -> no_lf (a ++ c) -> a <> [] -> file_lines r ls ->
  zlen b = n -> zlen a < n -> zlen c < n -> zlen c < k -> Forall (fun l => zlen l < n) ls -> Forall2 (fun l k => zlen l < k) ls ks -> Forall (fun k => 0 <= k) k2 ->
  calls_short (zlen a :: k :: ks ++ k2) (fileparser_open fd junk (a ++ c ++ 10 :: x :: r)) (b ++ g) n = Ret (got a :: got c :: map got ls ++ repeat eof (length k2)).
Proof.
  intros fd junk a c x r ls ks k2 k b g n Hfd Lc N Ne FL Lb La Lcn Lk F F2 K2. apply no_lf_app in N as [Na Nc]. pose proof Lc as Lc'. revert Lc'. zl. intros Lc'. zpos. unfold fileparser_open.
  cbn [calls_short]. destruct (short_part (zlen a) (mkFp 0 junk fd (a ++ c ++ 10 :: x :: r) 0) [] a (c ++ 10 :: x :: r) b g n) as (b1 & E1 & L1 & T1); cbn [ffd fcont foff fpos]; auto; try lia.
  rewrite E1. cbn [bind Z.eqb flen ffd fcont foff fpos]. rewrite (line_seen a b1 g n L1 La T1). cbn [bind].
  edestruct (short_lf k (mkFp (0 + zlen a + 1) (zlen a) fd (a ++ c ++ 10 :: x :: r) (0 + zlen a)) a c (x :: r) b1 g n) as (b2 & E2 & L2 & T2); cbn [ffd fcont foff fpos]; auto; try lia.
  rewrite E2. cbn [bind Z.eqb flen ffd fcont foff fpos]. rewrite (line_seen c b2 g n L2 Lcn T2). cbn [bind].
  rewrite (lines_ok ks r ls FL k2 _ (a ++ c ++ [10; x]) b2 g n); cbn [ffd fcont foff fpos]; auto; try lia.
  - rewrite <- !app_assoc. reflexivity.
  - zl. lia.
  - intros _. zl. lia.
  - zl. exact Lc.
Qed.
Print Assumptions c95_short_read_refuted.
Example c95_ex : let f := fileparser_open 3 77 [97; 98; 10; 99; 100; 10; 101] in
  calls_short [3; 9; 9; 9] f (repeat 7 8) 8 = Ret [(0, [97; 98; 0]); (0, [99; 100; 0]); (0, [101; 0]); (-2, [])] /\
  calls_short [1; 9; 9; 9; 9] f (repeat 7 8) 8 = Ret [(0, [97; 0]); (0, [98; 0]); (0, [100; 0]); (0, [101; 0]); (-2, [])].
Proof. split; vm_compute; reflexivity. Qed.
