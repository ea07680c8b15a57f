(** Proofs about the example programs. *)
From Verif Require Import Base Bits Cstr S_num L_num P_num M_hex S_hex P_hex M_format S_format P_format P_format2 P_format3 M_fmtuse M_ex S_ex.

(** ** printing *)
Lemma printf_items items cbuf dest : Forall supported items -> zlen cbuf = 32 -> zlen dest = 4096 ->
  exists ss, Forall2 prints items ss /\
    (zlen (concat ss) <= 4095 -> concat ss <> [] -> ulz_printf (concat (map item_fmt items) ++ [0]) (concat (map item_args items)) dest cbuf = Ret (Some (1, concat ss))).
Proof.
  intros S C D. destruct (text_run_items items [] cbuf S C) as (ss & P & E). exists ss. split; [exact P|]. intros L N. unfold ulz_printf, ulz_fprintf. rewrite run_ok by lia. rewrite E. cbv zeta. cbn [bind].
  rewrite ztake_all by lia. assert (0 < zlen (concat ss)). { destruct (concat ss); [congruence|]. rewrite zlen_cons. pose proof (zlen_nonneg l). lia. }
  replace (zlen (concat ss) =? 0) with false by lia. rewrite u64_id by lia. change (concat ss ++ 0 :: zdrop (zlen (concat ss) + 1) dest) with ([] ++ concat ss ++ 0 :: zdrop (zlen (concat ss) + 1) dest). rewrite zreads_at by reflexivity. reflexivity.
Qed.
(** ** hex.c *)
Lemma hex_of_nz x : bytes x -> nz (hex_of x).
Proof.
  induction x as [|b x IH]; intros B; [constructor|]. apply bytes_cons in B as [Bb B]. unfold hex_of. cbn [map concat app]. assert (X : forall d, 0 <= d < 16 -> digit_char true d <> 0). { intros d H. unfold digit_char. destruct (d <? 10) eqn:?; [lia|]. replace (d <? 36) with true by lia. lia. }
  unfold byte in Bb. constructor; [apply X; split; [apply Z.div_pos; lia|apply Z.div_lt_upper_bound; lia]|]. constructor; [apply X; apply Z.mod_pos_bound; lia|]. now apply IH.
Qed.
Lemma zlen_hex_of x : zlen (hex_of x) = 2 * zlen x.
Proof. induction x as [|b x IH]; [reflexivity|]. unfold hex_of. cbn [map concat]. rewrite zlen_app. change (concat _) with (hex_of x). rewrite IH. rewrite !zlen_cons. change (zlen []) with 0. lia. Qed.
Lemma hex_loop_ok reads : forall buf obuf dest cbuf, Forall (fun x => bytes x /\ 0 < zlen x <= 1024) reads -> zlen buf = 1024 -> zlen obuf = 2049 -> zlen dest = 4096 -> zlen cbuf = 32 ->
  hex_loop reads buf obuf dest cbuf = Ret (map (fun x => (1, hex_of x)) reads ++ [(1, [10])]).
Proof.
  induction reads as [|x reads IH]; intros buf obuf dest cbuf F B O D C; cbn [hex_loop].
  - destruct (printf_items [Lit 10] cbuf dest) as (ss & P & E); auto. { repeat constructor; lia. } inversion P as [|? ? ? ? P1 P2]; subst. inversion P2; subst. cbn in P1. subst. cbn [concat app map item_fmt item_args] in E. rewrite E; [reflexivity|cbn; lia|discriminate].
  - inversion F as [|? ? [Bx Lx] F']; subst. replace (zlen x =? 0) with false by lia. rewrite zwrites_ok by lia. cbn [bind]. rewrite ztake_0. cbn [app Z.add]. rewrite raw2hex_ok by (auto; lia). cbn [bind].
    set (o := hex_of x ++ 0 :: zdrop (2 * zlen x + 1) obuf). set (b := x ++ zdrop (zlen x) buf).
    assert (Lo : zlen o = 2049). { unfold o. rewrite zlen_app, zlen_cons, zlen_zdrop, zlen_hex_of by lia. lia. }
    assert (Lb : zlen b = 1024). { unfold b. rewrite zlen_app, zlen_zdrop by lia. lia. }
    destruct (printf_items [Str (hex_of x) (zdrop (2 * zlen x + 1) obuf)] cbuf dest) as (ss & P & E); auto. { repeat constructor. now apply hex_of_nz. }
    inversion P as [|? ? ? ? P1 P2]; subst. inversion P2; subst. cbn in P1. subst. cbn [concat app map item_fmt item_args] in E. rewrite app_nil_r in E. fold o in E. rewrite E.
    + cbn [bind]. rewrite IH by auto. reflexivity.
    + rewrite zlen_hex_of. lia.
    + intros Q. apply (f_equal zlen) in Q. rewrite zlen_hex_of in Q. change (zlen []) with 0 in Q. lia.
Qed.
(** ** diff.c *)
Section Diff.
Variables (f1 f2 : list Z) (mn : Z).
Hypothesis L1 : mn <= zlen f1.
Hypothesis L2 : mn <= zlen f2.
Lemma inner_total fuel : forall p l, 0 <= p < mn -> 0 <= l -> mn - p < Z.of_nat fuel -> exists p' l', diff_inner fuel f1 f2 mn p l = Ret (p', l') /\ p <= p' < mn.
Proof using L1 L2.
  induction fuel as [|fuel IH]; intros p l P L F; [lia|]. cbn [diff_inner]. destruct (Z.ltb_spec (p + (l + 1)) mn); [|exists p, (l + 1); split; [reflexivity|lia]].
  rewrite !(zread_ok 0) by lia. cbn [bind]. destruct (_ =? _); [exists (p + 1), (l + 1); split; [reflexivity|lia]|]. destruct (IH (p + 1) (l + 1)) as (p' & l' & E & B); try lia. exists p', l'. split; [exact E|lia].
Qed.
(** a run [o, e) whose end is seen *)
Lemma inner_run o e fuel : forall p l, p = o + l -> 0 <= o <= p -> p < e -> o + 2 * (e - o) <= mn -> e - p <= Z.of_nat fuel ->
  (forall q, o <= q < e -> znth 0 f1 q <> znth 0 f2 q) -> znth 0 f1 e = znth 0 f2 e -> diff_inner fuel f1 f2 mn p l = Ret (e, e - o).
Proof using L1 L2.
  induction fuel as [|fuel IH]; intros p l P O PE M F N E; [lia|]. cbn [diff_inner]. replace (p + (l + 1) <? mn) with true by lia. rewrite !(zread_ok 0) by lia. cbn [bind].
  destruct (Z.eq_dec (p + 1) e) as [X|X].
  - rewrite X, E, Z.eqb_refl. do 2 f_equal. lia.
  - specialize (N (p + 1)) as Np. replace (_ =? _) with false by lia. apply IH; auto; lia.
Qed.
Lemma loop_total fuel : forall p d, 0 <= p <= mn -> mn - p < Z.of_nat fuel -> exists ms, diff_loop fuel f1 f2 mn p d = Ret (ms ++ [Total (d + zlen ms) mn]) /\
  Forall (fun m => exists o n, m = Diff o n) ms /\ (ms = [] <-> forall q, p <= q < mn -> znth 0 f1 q = znth 0 f2 q).
Proof using L1 L2.
  induction fuel as [|fuel IH]; intros p d P F; [lia|]. cbn [diff_loop]. destruct (Z.ltb_spec p mn) as [H|H].
  - rewrite !(zread_ok 0) by lia. cbn [bind]. destruct (Z.eqb_spec (znth 0 f1 p) (znth 0 f2 p)) as [E|E].
    + destruct (IH (p + 1) d) as (ms & E2 & A & B); try lia. exists ms. split; [exact E2|]. split; [exact A|]. rewrite B. split; intros Q q Hq; [destruct (Z.eq_dec q p) as [->|]; [exact E|apply Q; lia]|apply Q; lia].
    + destruct (inner_total (S (length f1)) p 0) as (p' & l' & -> & B); try lia. { unfold zlen in L1. lia. } cbn [bind]. destruct (IH (p' + 1) (d + 1)) as (ms & -> & A & _); try lia. cbn [bind].
      exists (Diff (u64 (p' - l')) l' :: ms). split; [rewrite zlen_cons; cbn [app]; do 5 f_equal; lia|]. split; [constructor; eauto|]. split; [discriminate|]. intros Q. elim E. apply Q. lia.
  - exists []. change (zlen []) with 0. rewrite Z.add_0_r. split; [reflexivity|]. split; [constructor|]. split; [intros; lia|reflexivity].
Qed.
Lemma loop_eq fuel p d : 0 <= p < mn -> znth 0 f1 p = znth 0 f2 p -> diff_loop (S fuel) f1 f2 mn p d = diff_loop fuel f1 f2 mn (p + 1) d.
Proof using L1 L2. intros P E. cbn [diff_loop]. replace (p <? mn) with true by lia. rewrite !(zread_ok 0) by lia. cbn [bind]. now rewrite E, Z.eqb_refl. Qed.
End Diff.
Lemma F2_length {A B} (R : A -> B -> Prop) l m : Forall2 R l m -> length l = length m.
Proof. induction 1; cbn; congruence. Qed.
Lemma diff_runs_len o a b r : diff_runs o a b r -> zlen a = zlen b.
Proof. induction 1 as [|? ? ? ? ? _ IH|? ? ? ? ? ? _ F _ _ IH]; [reflexivity|rewrite !zlen_cons; lia|]. rewrite !zlen_app, IH. apply F2_length in F. unfold zlen. lia. Qed.
Lemma diff_runs_ok o a b r : diff_runs o a b r -> forall pa pb ta tb fuel d, zlen pa = o -> zlen pb = o ->
  let mn := o + zlen a in Forall (fun x => fst x + 2 * snd x <= mn) r -> mn < 2 ^ 64 -> zlen a < Z.of_nat fuel ->
  diff_loop fuel (pa ++ a ++ ta) (pb ++ b ++ tb) mn o d = Ret (map (fun x => Diff (fst x) (snd x)) r ++ [Total (d + zlen r) mn]).
Proof.
  induction 1 as [o|o x a b r R IH|o u v a b r U F E R IH]; intros pa pb ta tb fuel d A B mn Q M F0.
  - destruct fuel; [cbn in F0; lia|]. cbn [diff_loop]. subst mn. change (zlen []) with 0. replace (o <? o + 0) with false by lia. cbn [map app]. do 4 f_equal. change (zlen []) with 0. lia.
  - pose proof (diff_runs_len _ _ _ _ R) as Lab. pose proof (zlen_nonneg pa). pose proof (zlen_nonneg a). pose proof (zlen_nonneg ta). pose proof (zlen_nonneg tb). subst mn. rewrite zlen_cons in *. destruct fuel as [|fuel]; [lia|]. rewrite loop_eq.
    + specialize (IH (pa ++ [x]) (pb ++ [x]) ta tb fuel d). rewrite <- !app_assoc in IH. cbn [app] in IH. rewrite !zlen_app in IH. change (zlen [x]) with 1 in IH. cbn [app]. replace (o + (1 + zlen a)) with (o + 1 + zlen a) by lia. apply IH; try lia. eapply Forall_impl; [|exact Q]. cbv beta. intros y. lia.
    + rewrite !zlen_app, zlen_cons. lia.
    + rewrite !zlen_app, zlen_cons. lia.
    + lia.
    + cbn [app]. rewrite <- A at 1. rewrite <- B. now rewrite !znth_app_exact.
  - pose proof (diff_runs_len _ _ _ _ R) as Lab. inversion Q as [|? ? Q1 Q2]; subst. cbn [fst snd] in Q1. pose proof (F2_length _ _ _ F) as Luv. assert (Lz : zlen v = zlen u) by (unfold zlen; lia).
    assert (Lu : 0 < zlen u). { destruct u; [congruence|]. rewrite zlen_cons. pose proof (zlen_nonneg u). lia. }
    destruct E as [[-> ->]|(x & a' & b' & -> & ->)]. { exfalso. subst mn. rewrite app_nil_r in Q1. pose proof (zlen_nonneg pa). lia. }
    pose proof (zlen_nonneg pa). pose proof (zlen_nonneg a'). pose proof (zlen_nonneg ta). pose proof (zlen_nonneg tb). subst mn. rewrite zlen_app, zlen_cons in *. set (o := zlen pa) in *. set (mn := o + (zlen u + (1 + zlen a'))) in *.
    set (g1 := pa ++ (u ++ x :: a') ++ ta). set (g2 := pb ++ (v ++ x :: b') ++ tb). rewrite zlen_cons in Lab.
    assert (G1 : mn <= zlen g1) by (unfold g1; rewrite !zlen_app, zlen_cons; lia). assert (G2 : mn <= zlen g2) by (unfold g2; rewrite !zlen_app, zlen_cons; lia).
    assert (N : forall q, o <= q < o + zlen u -> znth 0 g1 q <> znth 0 g2 q).
    { intros q Hq. unfold g1, g2. rewrite !(znth_app2 0 pa), !(znth_app2 0 pb) by lia. rewrite B. fold o. rewrite <- !app_assoc. rewrite !znth_app1 by lia.
      assert (W : forall u v, Forall2 (fun x y : Z => x <> y) u v -> forall i, 0 <= i < zlen u -> znth 0 u i <> znth 0 v i).
      { clear. induction 1 as [|c1 c2 l1 l2 Hc _ IH]; intros i Hi; [change (zlen []) with 0 in Hi; lia|]. rewrite zlen_cons in Hi. destruct (Z.eq_dec i 0) as [->|]; [exact Hc|]. rewrite !znth_consS by lia. apply IH. lia. }
      apply W; [exact F|lia]. }
    assert (Ee : znth 0 g1 (o + zlen u) = znth 0 g2 (o + zlen u)).
    { unfold g1, g2. rewrite <- !app_assoc. rewrite !app_assoc. cbn [app]. rewrite <- !(app_assoc _ (_ :: _)). cbn [app]. replace (o + zlen u) with (zlen (pa ++ u)) at 1 by (rewrite zlen_app; lia). replace (o + zlen u) with (zlen (pb ++ v)) by (rewrite zlen_app; lia). now rewrite !znth_app_exact. }
    destruct fuel as [|fuel]; [lia|]. cbn [diff_loop]. replace (o <? mn) with true by lia. rewrite !(zread_ok 0) by lia. cbn [bind]. specialize (N o) as No. replace (_ =? _) with false by lia.
    rewrite (inner_run g1 g2 mn G1 G2 o (o + zlen u)); auto; try lia. 2: { unfold zlen in *. lia. } cbn [bind]. rewrite <- (loop_eq g1 g2 mn G1 G2) by (auto; lia).
    specialize (IH (pa ++ u) (pb ++ v) ta tb (S fuel) (d + 1)). cbv zeta in IH. rewrite !zlen_app in IH. rewrite <- !app_assoc in IH. fold o in IH. replace (o + zlen u + (1 + zlen a')) with mn in IH by lia. unfold g1, g2. rewrite <- !app_assoc.
    rewrite IH; clear IH; [|lia|lia|exact Q2|exact M|lia]. cbn [bind map fst snd app]. rewrite zlen_cons. rewrite u64_id by lia. do 2 f_equal; [f_equal; lia|]. do 3 f_equal. lia.
Qed.
