(** C55-C57: ulz_vsnprintf and ulz_snprintf. *)
From Verif Require Import Base Cstr S_num L_num M_num M_format S_format P_format P_format2 P_format3.

(** dest (d) after a text t was put into its first size bytes, with and without a NUL *)
Definition written (size : Z) (t d : list Z) : list Z := let t' := ztake (size - 1) t in t' ++ 0 :: zdrop (zlen t' + 1) d.
Definition written0 (size : Z) (t d : list Z) : list Z := let t' := ztake (size - 1) t in t' ++ zdrop (zlen t') d.

(** C55: for every format without precisions of two digits and arguments of the kinds it takes,
    there is one text such that every buffer gets as much of it as fits, a NUL, and nothing else;
    or the format is rejected for every buffer *)
Theorem c55_vsnprintf l r args cbuf : nz l -> one_digit Text l = true -> given (takes Text l) args -> zlen cbuf = 32 ->
  exists t,
    (forall d size, 1 <= size <= zlen d -> ulz_vsnprintf (Some d) size (l ++ 0 :: r) args cbuf = Ret (Z.min (size - 1) (zlen t), Some (written size t d))) \/
    (forall d size, 1 <= size <= zlen d -> ulz_vsnprintf (Some d) size (l ++ 0 :: r) args cbuf = Ret (-1, Some (written0 size t d))).
Proof.
  intros N O G C. destruct (text_run_ok l r args cbuf N C O G) as (b & t & E). exists t.
  destruct b; [right|left]; intros d size H; rewrite run_ok by exact H; rewrite E; cbv zeta; [reflexivity|].
  unfold written. do 2 f_equal. destruct (Z_le_dec (size - 1) (zlen t)); [rewrite zlen_ztake by lia; lia|rewrite ztake_all by lia; lia].
Qed.
Print Assumptions c55_vsnprintf.
(** the buffer keeps its length, and its bytes from destsize on *)
Theorem c55_bounds t d size : 1 <= size <= zlen d -> zlen (written size t d) = zlen d /\ zdrop size (written size t d) = zdrop size d /\ zlen (written0 size t d) = zlen d /\ zdrop size (written0 size t d) = zdrop size d.
Proof.
  intros H. unfold written, written0. cbv zeta. set (t' := ztake (size - 1) t). assert (L : 0 <= zlen t' <= size - 1). { split; [apply zlen_nonneg|]. unfold t'. destruct (Z_le_dec (size - 1) (zlen t)); [rewrite zlen_ztake by lia; lia|rewrite ztake_all by lia; lia]. }
  assert (E : forall k, 0 <= k <= size -> forall h : list Z, zlen h = k -> zdrop size (h ++ zdrop k d) = zdrop size d).
  { intros k K h <-. rewrite zdrop_app2 by lia. rewrite zdrop_zdrop by lia. f_equal. lia. }
  repeat split.
  - rewrite zlen_app, zlen_cons, zlen_zdrop by lia. lia.
  - change (0 :: zdrop (zlen t' + 1) d) with ([0] ++ zdrop (zlen t' + 1) d). rewrite app_assoc. apply E; [lia|]. zl. lia.
  - rewrite zlen_app, zlen_zdrop by lia. lia.
  - apply E; lia.
Qed.
Print Assumptions c55_bounds.
(** C55, destsize 0: the NUL is written all the same *)
Theorem c55_destsize_0_refuted items r cbuf : Forall supported items -> zlen cbuf = 32 -> let fmt := concat (map item_fmt items) ++ 0 :: r in let args := concat (map item_args items) in
  ulz_vsnprintf (Some []) 0 fmt args cbuf = UB /\ forall x d, ulz_vsnprintf (Some (x :: d)) 0 fmt args cbuf = Ret (0, Some (0 :: d)).
Proof.
  intros S C fmt args. destruct (text_run_items items r cbuf S C) as (ss & _ & E). unfold text_run in E.
  assert (X : forall d0, ulz_vsnprintf (Some d0) 0 fmt args cbuf = let* d := zwrite d0 0 0 in Ret (0, Some d)).
  { intros d0. set (k0 := mkSink (Some d0) 0 (-1) 0). pose proof (loop_sim collect put (fun _ k => k = k0)) as Q. assert (H0 : forall (t : list Z) k c, k = k0 -> orel (fun _ k => k = k0) (collect t c) (put k c)) by (intros t k c ->; reflexivity).
    specialize (Q H0 (2 * length fmt + 2)%nat fmt false 0 args 0 cbuf [] k0 eq_refl). unfold fmt, args in Q. rewrite E in Q. unfold ulz_vsnprintf. change (0 - 1) with (-1). fold k0. fold fmt args in Q. destruct (fmt_loop put _ _ _ _ _ _ _ _) as [[f k]| |]; cbn [orel] in Q; [|contradiction|contradiction].
    destruct Q as [Q1 Q2]. cbn in Q1, Q2. subst f k. reflexivity. }
  split; [apply X|]. intros x d. rewrite X. change (x :: d) with ([] ++ x :: d). rewrite zwrite_at by reflexivity. reflexivity.
Qed.
Print Assumptions c55_destsize_0_refuted.
(** C55, longer precisions: "%.991d" overflows the number buffer, whatever the destination *)
Theorem c55_wide_refuted : ulz_vsnprintf None 0 [37; 46; 57; 57; 49; 100; 0] [VInt 5] (zrepeat 0 32) = UB /\ ulz_vsnprintf (Some (zrepeat 0 500)) 500 [37; 46; 57; 57; 49; 100; 0] [VInt 5] (zrepeat 0 32) = UB.
Proof. split; vm_compute; reflexivity. Qed.
Print Assumptions c55_wide_refuted.
(** "%s=%d%%" with "a", -7 into 4 and 8 bytes, "%q" *)
Example c55_ex : let f := [37; 115; 61; 37; 100; 37; 37; 0] in let a := [VStr (Some [97; 0]); VInt (-7)] in let j := zrepeat 1 32 in
  nz (removelast f) /\ one_digit Text (removelast f) = true /\ given (takes Text (removelast f)) a /\
  ulz_vsnprintf (Some (zrepeat 9 8)) 4 f a j = Ret (3, Some [97; 61; 45; 0; 9; 9; 9; 9]) /\
  ulz_vsnprintf (Some (zrepeat 9 8)) 8 f a j = Ret (5, Some [97; 61; 45; 55; 37; 0; 9; 9]) /\
  ulz_vsnprintf None 0 f a j = Ret (5, None) /\
  ulz_vsnprintf (Some (zrepeat 9 4)) 4 [98; 37; 113; 0] [] j = Ret (-1, Some [98; 9; 9; 9]).
Proof.
  split; [repeat constructor; lia|]. split; [reflexivity|]. split; [|repeat split; vm_compute; reflexivity].
  apply given_cons; [exists [97], []; split; [reflexivity|repeat constructor; lia]|]. apply given_cons; [exact I|constructor].
Qed.

(** C56: for every format, arguments and buffer the dry run is defined iff the real one is, fails iff it
    fails, and counts what a buffer with room for it gets *)
Theorem c56_dry_run fmt args cbuf d size n : 1 <= size <= zlen d ->
  let run := ulz_vsnprintf (Some d) size fmt args cbuf in
  (ulz_vsnprintf None n fmt args cbuf = UB /\ run = UB) \/
  (ulz_vsnprintf None n fmt args cbuf = Ret (-1, None) /\ exists d', run = Ret (-1, Some d')) \/
  (exists t, ulz_vsnprintf None n fmt args cbuf = Ret (zlen t, None) /\
     (zlen t < size -> run = Ret (zlen t, Some (t ++ 0 :: zdrop (zlen t + 1) d))) /\
     (size <= zlen t -> run = Ret (size - 1, Some (ztake (size - 1) t ++ 0 :: zdrop size d)))).
Proof.
  intros H run. unfold run. rewrite (run_ok (Some d) size fmt args cbuf H), (run_ok None n fmt args cbuf I). pose proof (text_run_nf fmt args cbuf) as NF. destruct (text_run fmt args cbuf) as [[b t]| |]; [|now left|now destruct NF].
  destruct b; [right; left; split; [reflexivity|]; cbv zeta; eauto|]. right. right. exists t. split; [reflexivity|]. cbv zeta. split; intros L.
  - rewrite ztake_all by lia. reflexivity.
  - rewrite zlen_ztake by lia. do 4 f_equal. now rewrite Z.sub_add.
Qed.
Print Assumptions c56_dry_run.
Example c56_ex : let f := [37; 46; 51; 120; 0] in
  ulz_vsnprintf None 0 f [VInt 171] (zrepeat 0 32) = Ret (3, None) /\ ulz_vsnprintf (Some (zrepeat 7 5)) 4 f [VInt 171] (zrepeat 0 32) = Ret (3, Some [48; 97; 98; 0; 7]) /\
  ulz_vsnprintf (Some (zrepeat 7 5)) 3 f [VInt 171] (zrepeat 0 32) = Ret (2, Some [48; 97; 0; 7; 7]).
Proof. repeat split; vm_compute; reflexivity. Qed.

(** C57: on the supported formats the text is what C prints, item by item (there is exactly one such
    text), cut to the buffer *)
Theorem c57_snprintf items r cbuf : Forall supported items -> zlen cbuf = 32 ->
  exists ss, Forall2 prints items ss /\ (forall ss', Forall2 prints items ss' -> ss' = ss) /\
    forall d size, 1 <= size <= zlen d ->
    ulz_snprintf (Some d) size (concat (map item_fmt items) ++ 0 :: r) (concat (map item_args items)) cbuf =
    Ret (Z.min (size - 1) (zlen (concat ss)), Some (written size (concat ss) d)).
Proof.
  intros S C. destruct (text_run_items items r cbuf S C) as (ss & P & E). exists ss. split; [exact P|]. split.
  - clear E S. induction P as [|i s items ss Pi Ps IH]; intros ss' P'; inversion P'; subst; [reflexivity|]. f_equal; [eapply prints_fun; eauto|auto].
  - intros d size H. unfold ulz_snprintf. rewrite run_ok by exact H. rewrite E. cbv zeta. unfold written. set (t := concat ss). do 2 f_equal.
    destruct (Z_le_dec (size - 1) (zlen t)); [rewrite zlen_ztake by lia; lia|rewrite ztake_all by lia; lia].
Qed.
Print Assumptions c57_snprintf.
(** outside of them it is not: "%.12d" of 5, "%.2d" of 123, "%x" of -1 (C: ffffffff) *)
Theorem c57_subset_refuted : let run f v := ulz_snprintf (Some (zrepeat 9 20)) 20 f [VInt v] (zrepeat 0 32) in
  (run [37; 46; 49; 50; 100; 0] 5 = Ret (1, Some (53 :: 0 :: zrepeat 9 18)) /\ forall s, number_text 12 Cd 5 s -> zlen s = 12) /\
  (run [37; 46; 50; 100; 0] 123 = Ret (2, Some (50 :: 51 :: 0 :: zrepeat 9 17)) /\ number_text 2 Cd 123 [49; 50; 51]) /\
  (run [37; 120; 0] (-1) = Ret (16, Some (zrepeat 102 16 ++ 0 :: zrepeat 9 3)) /\ number_text 1 Cx (2 ^ 32 - 1) (zrepeat 102 8)).
Proof.
  cbv zeta. split; [split; [vm_compute; reflexivity|]|split; split; try (vm_compute; reflexivity)].
  - intros s (ds & R & ->). assert (R5 : is_repr 10 5 [5]) by (split; [repeat constructor; lia|split; [reflexivity|right; exists 5, []; split; [reflexivity|lia]]]). rewrite (repr_unique 10 5 ds [5] ltac:(lia) R R5). reflexivity.
  - exists [1; 2; 3]. split; [split; [repeat constructor; lia|split; [reflexivity|right; exists 1, [2; 3]; split; [reflexivity|lia]]]|reflexivity].
  - exists (zrepeat 15 8). split; [split; [repeat constructor; lia|split; [reflexivity|right; exists 15, (zrepeat 15 7); split; [reflexivity|lia]]]|reflexivity].
Qed.
Print Assumptions c57_subset_refuted.
(** "x%.3u: %s%c %llu %lld%%" with 42, "hi", '!', 2^64-1, -2^63 *)
Example c57_ex : let items := [Lit 120; Num (Some 3) Mnone Cu 42; Lit 58; Lit 32; Str [104; 105] []; Chr 33; Lit 32; Num None Mll Cu (2 ^ 64 - 1); Lit 32; Num None Mll Cd (- 2 ^ 63); Percent] in
  Forall supported items /\
  ulz_snprintf (Some (zrepeat 9 60)) 60 (concat (map item_fmt items) ++ [0]) (concat (map item_args items)) (zrepeat 0 32) =
  Ret (52, Some ([120; 48; 52; 50; 58; 32; 104; 105; 33; 32; 49; 56; 52; 52; 54; 55; 52; 52; 48; 55; 51; 55; 48; 57; 53; 53; 49; 54; 49; 53; 32; 45; 57; 50; 50; 51; 51; 55; 50; 48; 51; 54; 56; 53; 52; 55; 55; 53; 56; 48; 56; 37] ++ 0 :: zrepeat 9 7)).
Proof. split; [repeat (constructor; [cbn; try split; try lia; try (repeat constructor; lia)|]); constructor|vm_compute; reflexivity]. Qed.
