From Verif Require Import Base Cstr M_str S_str P_str S_scan.

Section Find.
Variables (eq : Z -> Z -> bool) (R : Z -> Z -> Prop).
Hypothesis HR : forall h n, eq h n = true <-> R h n.

Lemma inner_hit : forall m a b tail pre ndpre ndrest n, nz m -> Forall2 R m a -> n = (length a + length b)%nat ->
  find_inner eq n (pre ++ m ++ tail) (ndpre ++ (a ++ b) ++ ndrest) (zlen pre) (zlen ndpre) =
  find_inner eq (length b) (pre ++ m ++ tail) (ndpre ++ (a ++ b) ++ ndrest) (zlen pre + zlen m) (zlen ndpre + zlen a).
Proof.
  induction m as [|c m IH]; intros a b tail pre ndpre ndrest n N F E; inversion F; subst.
  - cbn [app length Nat.add]. change (zlen (@nil Z)) with 0. now rewrite !Z.add_0_r.
  - cbn [length Nat.add find_inner app]. rewrite zread_at by reflexivity. cbn [bind]. apply nz_cons in N as [N0 N]. replace (c =? 0) with false by lia.
    rewrite zread_at by reflexivity. cbn [bind]. rewrite (proj2 (HR c y) H1).
    specialize (IH l' b tail (pre ++ [c]) (ndpre ++ [y]) ndrest _ N H3 (Logic.eq_refl _)). rewrite <- !app_assoc in IH. cbn [app] in IH.
    replace (zlen (pre ++ [c])) with (zlen pre + 1) in IH by (zl; lia). replace (zlen (ndpre ++ [y])) with (zlen ndpre + 1) in IH by (zl; lia).
    rewrite IH || (rewrite <- app_assoc in *; rewrite IH). f_equal; zl; lia.
Qed.
(** the search follows the scan *)
Lemma scan_find nd ndrest : nd <> [] -> forall t r, scan R nd t r -> forall fuel pre rest, nz t -> (length t < fuel)%nat ->
  find_loop eq fuel (pre ++ t ++ 0 :: rest) (nd ++ ndrest) (zlen nd) (zlen pre) = Ret (option_map (Z.add (zlen pre)) r).
Proof.
  intros Ne t r S. induction S as [m q F|m a n b E F|w t r M S IH]; intros fuel pre rest N L; (destruct fuel as [|fuel]; [lia|]); cbn [find_loop];
    replace (Z.to_nat (zlen nd)) with (length nd) by (unfold zlen; lia).
  - destruct m as [|c m]; [inversion F; subst; congruence|]. rewrite <- app_assoc. cbn [app]. rewrite zread_at by reflexivity. cbn [bind].
    apply nz_app in N as [N _]. pose proof N as N'. apply nz_cons in N' as [N0 _]. replace (c =? 0) with false by lia.
    pose proof (inner_hit (c :: m) nd [] (q ++ 0 :: rest) pre [] ndrest (length nd) N F) as H. rewrite app_nil_r in H. cbn [app length] in H. change (zlen (@nil Z)) with 0 in H. rewrite H by lia. cbn [find_inner bind option_map]. now rewrite Z.add_0_r.
  - destruct m as [|c m]; cbn [app]; rewrite zread_at by reflexivity; cbn [bind]; [reflexivity|].
    pose proof N as N'. apply nz_cons in N' as [N0 _]. replace (c =? 0) with false by lia.
    pose proof (inner_hit (c :: m) a (n :: b) (0 :: rest) pre [] ndrest (length nd) N F) as H. cbn [app] in H. change (zlen (@nil Z)) with 0 in H. subst nd. rewrite H by (rewrite app_length; reflexivity).
    cbn [find_inner length]. change (pre ++ c :: m ++ 0 :: rest) with (pre ++ (c :: m) ++ 0 :: rest). rewrite (app_assoc pre). rewrite zread_at by (zl; lia). cbn [bind]. reflexivity.
  - destruct M as (m & x & a & n & b & E & -> & F & NR). rewrite <- !app_assoc in *. cbn [app] in *.
    assert (NX : nz m /\ x <> 0 /\ nz t). { apply nz_app in N as [N1 N]. apply nz_cons in N as [N2 N3]. auto. } destruct NX as (Nm & Nx & Nt).
    assert (Z0 : exists c l, m ++ x :: t ++ 0 :: rest = c :: l /\ c <> 0). { destruct m as [|c m]; [exists x, (t ++ 0 :: rest); auto|exists c, (m ++ x :: t ++ 0 :: rest)]. apply nz_cons in Nm as [? _]. auto. }
    destruct Z0 as (c & l & E0 & Nc). rewrite E0. rewrite zread_at by reflexivity. cbn [bind]. replace (c =? 0) with false by lia. rewrite <- E0.
    pose proof (inner_hit m a (n :: b) (x :: t ++ 0 :: rest) pre [] ndrest (length nd) Nm F) as H. cbn [app] in H. change (zlen (@nil Z)) with 0 in H. subst nd. rewrite H by (rewrite app_length; reflexivity). clear H.
    cbn [find_inner length]. rewrite (app_assoc pre m). rewrite zread_at by (zl; lia). cbn [bind]. replace (x =? 0) with false by lia.
    rewrite <- app_assoc. cbn [app]. rewrite zread_at by lia. cbn [bind]. destruct (eq x n) eqn:EX; [apply HR in EX; contradiction|]. cbn [bind].
    specialize (IH fuel ((pre ++ m) ++ [x]) rest Nt). rewrite <- !app_assoc in IH. cbn [app] in IH. rewrite <- !app_assoc.
    replace (zlen pre + zlen m + 1) with (zlen (pre ++ m ++ [x])) by (zl; lia). cbn [app] in IH |- *. rewrite IH.
    + destruct r as [k|]; cbn [option_map]; [|reflexivity]. do 2 f_equal. zl. lia.
    + rewrite app_length in L. cbn [length] in L. lia.
Qed.
(** there is always a scan *)
Lemma scan_case : forall nd t, (exists m q, t = m ++ q /\ Forall2 R m nd) \/ (exists a n b, nd = a ++ n :: b /\ Forall2 R t a) \/ (exists w q, t = w ++ q /\ miss R nd w).
Proof.
  induction nd as [|n nd IH]; intros t; [left; exists [], t; auto|]. destruct t as [|c t]; [right; left; exists [], n, nd; auto|].
  destruct (eq c n) eqn:E.
  - apply HR in E. destruct (IH t) as [(m & q & -> & F)|[(a & n' & b & -> & F)|(w & q & -> & m & x & a & n' & b & -> & -> & F & NR)]].
    + left. exists (c :: m), q. auto.
    + right. left. exists (n :: a), n', b. auto.
    + right. right. exists (c :: m ++ [x]), q. split; [reflexivity|]. exists (c :: m), x, (n :: a), n', b. auto.
  - right. right. exists [c], t. split; [reflexivity|]. exists [], c, [], n, nd. repeat split; auto. intros X. apply HR in X. congruence.
Qed.
Lemma scan_total nd : nd <> [] -> forall k t, (length t < k)%nat -> exists r, scan R nd t r.
Proof.
  intros Ne. induction k as [|k IH]; intros t L; [lia|]. destruct (scan_case nd t) as [(m & q & -> & F)|[(a & n & b & E & F)|(w & q & -> & M)]].
  - eexists. now apply scan_hit.
  - eexists. eapply scan_end; eauto.
  - destruct (IH q) as (r & S). { destruct M as (m & x & a & n & b & _ & -> & _). rewrite !app_length in L. cbn [length] in L. lia. }
    eexists. eapply scan_miss; eauto.
Qed.
Lemma find_scan text rest nd ndrest r : nz text -> nd <> [] ->
  find eq (text ++ 0 :: rest) (nd ++ ndrest) (zlen nd) = Ret r <-> scan R nd text r.
Proof.
  intros N Ne. assert (H : forall r, scan R nd text r -> find eq (text ++ 0 :: rest) (nd ++ ndrest) (zlen nd) = Ret r).
  { intros r0 S. unfold find. replace (zlen nd =? 0) with false by (destruct nd; [congruence|]; zl; zpos; lia).
    pose proof (scan_find nd ndrest Ne text r0 S (Datatypes.S (length (text ++ 0 :: rest))) [] rest N) as H. cbn [app] in H. change (zlen (@nil Z)) with 0 in H. rewrite H by (rewrite app_length; lia). destruct r0; reflexivity. }
  split; [|apply H]. intros E. destruct (scan_total nd Ne (Datatypes.S (length text)) text) as (r0 & S); [lia|]. rewrite (H r0 S) in E. injection E as <-. exact S.
Qed.
End Find.

Section Rel.
Variable R : Z -> Z -> Prop.
Lemma miss_pos nd w : miss R nd w -> 1 <= zlen w <= zlen nd.
Proof. intros (m & x & a & n & b & -> & -> & F & _). apply Forall2_len in F. zl. zpos. lia. Qed.
(** a text shorter than the needle *)
Lemma scan_short nd t r : scan R nd t r -> zlen t < zlen nd -> r = None.
Proof.
  induction 1 as [m q F|m a n b E F|w t r M S IH]; intros L; auto.
  - apply Forall2_len in F. revert L. zl. zpos. lia.
  - rewrite IH; [reflexivity|]. apply miss_pos in M. revert L. zl. lia.
Qed.
Lemma Forall2_at : forall l m, Forall2 R l m -> forall i, 0 <= i < zlen l -> R (znth 0 l i) (znth 0 m i).
Proof.
  induction 1 as [|x y l m H F IH]; intros i Hi; [change (zlen (@nil Z)) with 0 in Hi; lia|]. destruct (Z.eq_dec i 0) as [->|X]; [exact H|].
  replace i with (1 + (i - 1)) by lia. rewrite zlen_cons in Hi. specialize (IH (i - 1) ltac:(lia)).
  unfold znth in *. replace (Z.to_nat (1 + (i - 1))) with (S (Z.to_nat (i - 1))) by lia. exact IH.
Qed.
Lemma znth_app_mid {A} (d : A) p x q i : i = zlen p -> znth d (p ++ x :: q) i = x.
Proof. intros ->. unfold znth, zlen. rewrite Nat2Z.id, app_nth2 by lia. now rewrite Nat.sub_diag. Qed.
Lemma Forall_znth (P : Z -> Prop) l i : Forall P l -> 0 <= i < zlen l -> P (znth 0 l i).
Proof. intros F H. rewrite Forall_forall in F. apply F. apply nth_In. unfold zlen in H. lia. Qed.
(** no occurrence starts within a failed comparison: the first occurrence is found *)
Lemma scan_first nd t r : (forall a n b, nd = a ++ n :: b -> forall x, ~ R x n -> forall i, 0 <= i <= zlen a -> ~ R x (znth 0 nd i)) -> scan R nd t r ->
  forall k, occurs R t nd k -> exists j, r = Some j /\ 0 <= j <= k.
Proof.
  intros RC S. induction S as [m q F|m a n b E F|w t r M S IH]; intros k (p & m' & q' & E1 & Ek & F').
  - exists 0. split; [reflexivity|]. subst k. zpos. lia.
  - exfalso. apply Forall2_len in F, F'. apply (f_equal zlen) in E1, E. rewrite !zlen_app in E1. rewrite zlen_app, zlen_cons in E. zpos. lia.
  - destruct (Z_lt_le_dec k (zlen w)) as [L|L].
    + exfalso. pose proof (zlen_nonneg p) as Pp. destruct M as (m & x & a & n & b & E & -> & F & NR).
      assert (Lm : zlen m < zlen nd) by (apply Forall2_len in F; subst nd; zl; zpos; lia). pose proof (Forall2_len _ _ _ F') as Lm'.
      assert (X : x = znth 0 m' (zlen m - k)).
      { assert (X1 : znth 0 ((m ++ [x]) ++ t) (zlen m) = x) by (rewrite <- app_assoc; cbn [app]; now apply znth_app_mid). rewrite <- X1, E1.
        rewrite zlen_app in L. change (zlen [x]) with 1 in L. destruct (zsplit (zlen m - k) m') as (u & v & -> & Lu); [zpos; lia|]. destruct v as [|y v]; [revert Lm'; zl; lia|].
        replace (p ++ (u ++ y :: v) ++ q') with ((p ++ u) ++ y :: (v ++ q')) by (rewrite <- !app_assoc; reflexivity). rewrite !znth_app_mid; zl; lia. }
      rewrite zlen_app in L. change (zlen [x]) with 1 in L. pose proof (Forall2_at _ _ F' (zlen m - k) ltac:(zpos; lia)) as G. rewrite <- X in G.
      apply Forall2_len in F. destruct (RC a n b E x NR (zlen m - k) ltac:(lia) G).
    + destruct (IH (k - zlen w)) as (j & -> & J).
      * destruct (zsplit (zlen w) p) as (u & v & -> & Lu); [zpos; lia|]. rewrite <- app_assoc in E1.
        assert (E2 : w = u /\ t = v ++ m' ++ q'). { clear - E1 Lu. revert u Lu E1. induction w as [|a w IH]; intros [|b u] Lu E1; revert Lu; zl; zpos; intros; try lia; cbn [app] in E1; [auto|]. injection E1 as -> E1. destruct (IH u ltac:(lia) E1) as [-> ->]. auto. }
        destruct E2 as [-> ->]. exists v, m', q'. repeat split; auto. revert Ek. zl. lia.
      * exists (zlen w + j). split; [reflexivity|]. zpos. lia.
Qed.
Lemma scan_repeated c nd t r : Forall (Logic.eq c) nd -> scan R nd t r -> forall k, occurs R t nd k -> exists j, r = Some j /\ 0 <= j <= k.
Proof.
  intros F S. apply scan_first with (nd := nd); [|exact S]. intros a n b E x NR i I. pose proof (Forall_znth _ nd i F) as G. cbv beta in G. rewrite <- G by (subst nd; zl; zpos; lia).
  subst nd. apply Forall_app in F as [_ F]. inversion F; subst. exact NR.
Qed.
End Rel.

Lemma lost eq (R : Z -> Z -> Prop) (HR : forall h n, eq h n = true <-> R h n) nd u m w t rest ndrest : nd <> [] -> nz (u :: m) -> Forall2 R m nd -> u :: m = w ++ t -> miss R nd w -> 2 <= zlen w ->
  occurs R (u :: m) nd 1 /\ find eq ((u :: m) ++ 0 :: rest) (nd ++ ndrest) (zlen nd) = Ret None.
Proof.
  intros Ne N F E M L. split; [exists [u], m, []; rewrite app_nil_r; auto|]. apply (find_scan eq R HR); [exact N|exact Ne|].
  destruct (scan_total eq R HR nd Ne (Datatypes.S (length t)) t) as (r & S); [lia|].
  assert (r = None) as ->. { apply (scan_short R nd t r S). apply Forall2_len in F. apply (f_equal zlen) in E. rewrite zlen_cons, zlen_app in E. lia. }
  rewrite E. change (@None Z) with (option_map (Z.add (zlen w)) None). now apply scan_miss.
Qed.
(** the first byte that differs *)
Lemma run_split (c : Z) l : Forall (eq c) l \/ exists a d b, l = a ++ d :: b /\ Forall (eq c) a /\ d <> c.
Proof.
  induction l as [|x l IH]; [left; constructor|]. destruct (Z.eq_dec x c) as [->|X]; [|right; exists [], x, l; auto].
  destruct IH as [IH|(a & d & b & -> & F & D)]; [left; auto|right; exists (c :: a), d, b; auto].
Qed.
Lemma Forall_rep c (a : list Z) : Forall (eq c) a -> a = repeat c (length a).
Proof. induction 1 as [|x a <- F IH]; [reflexivity|]. cbn [length repeat]. congruence. Qed.
Lemma rep_snoc (c : Z) n : repeat c n ++ [c] = c :: repeat c n.
Proof. induction n as [|n IH]; [reflexivity|]. cbn [repeat app]. now rewrite IH. Qed.

(** strstr_uc: a needle with two different bytes *)
Lemma uc_lost c a d b rest ndrest : let nd := c :: a ++ d :: b in Forall (eq c) a -> d <> c -> Forall (fun x => x <> 0 /\ to_upper x = x) nd ->
  occurs uc_match (c :: nd) nd 1 /\ strstr_uc ((c :: nd) ++ 0 :: rest) (nd ++ ndrest) (zlen nd) = Ret None.
Proof.
  intros nd F D U. assert (N : nz nd) by (eapply Forall_impl; [|exact U]; cbv beta; tauto).
  assert (S : Forall2 uc_match nd nd). { clear - U. induction U as [|x l [_ H] U IH]; constructor; auto. }
  apply (lost uc_eq uc_match uc_eq_ok nd c nd (c :: a ++ [c]) (d :: b)); auto.
  - discriminate.
  - constructor; [|exact N]. unfold nd in U. inversion U as [|? ? [? _] _]; auto.
  - unfold nd. cbn [app]. f_equal. rewrite <- app_assoc. cbn [app]. rewrite (Forall_rep c a F). replace (repeat c (length a) ++ c :: d :: b) with ((repeat c (length a) ++ [c]) ++ d :: b) by (rewrite <- app_assoc; reflexivity). now rewrite rep_snoc.
  - exists (c :: a), c, (c :: a), d, b. repeat split; auto.
    + clear - F U. unfold nd in U. change (c :: a ++ d :: b) with ((c :: a) ++ d :: b) in U. apply Forall_app in U as [U _]. induction U as [|x l [_ H] U IH]; constructor; auto.
    + unfold uc_match. unfold nd in U. inversion U as [|? ? [_ H] _]; subst. rewrite H. auto.
  - zl. zpos. lia.
Qed.
(** strstar: a byte that is no star behind a change *)
Lemma star_lost c i j d b rest ndrest : let nd := repeat c i ++ repeat 42 j ++ d :: b in c <> 42 -> d <> 42 -> (j = 0%nat -> (0 < i)%nat /\ d <> c) -> (0 < i + j)%nat -> nz nd ->
  exists text, nz text /\ occurs star_match text nd 1 /\ strstar (text ++ 0 :: rest) (nd ++ ndrest) (zlen nd) = Ret None.
Proof.
  intros nd C D J P N. assert (ND : nd = repeat c i ++ repeat 42 j ++ d :: b) by reflexivity. set (y := if d =? 1 then 2 else 1). assert (Y : y <> 0 /\ y <> d) by (unfold y; destruct (d =? 1) eqn:E; lia).
  set (u := match i with O => y | _ => c end).
  assert (Nn : nz (repeat c i) /\ d <> 0 /\ nz b). { rewrite ND in N. apply nz_app in N as [N1 N]. apply nz_app in N as [_ N]. apply nz_cons in N as [N2 N3]. auto. } destruct Nn as (N1 & N2 & N3).
  assert (Nu : u <> 0). { unfold u. destruct i; [tauto|]. cbn [repeat] in N1. apply nz_cons in N1. tauto. }
  assert (Ny : nz (repeat y j)) by (apply Forall_forall; intros z Hz; apply repeat_spec in Hz; subst; tauto).
  assert (Nm : nz (repeat c i ++ repeat y j ++ d :: b)). { apply nz_app. split; [exact N1|]. apply nz_app. split; [exact Ny|]. apply nz_cons. auto. }
  assert (S0 : forall l, Forall2 star_match l l) by (induction l; constructor; unfold star_match; auto).
  assert (S1 : forall k, Forall2 star_match (repeat y k) (repeat 42 k)) by (induction k; constructor; unfold star_match; auto).
  exists (u :: repeat c i ++ repeat y j ++ d :: b). split; [apply nz_cons; auto|].
  assert (W : exists m x, u :: repeat c i ++ repeat y j = m ++ [x] /\ Forall2 star_match m (repeat c i ++ repeat 42 j) /\ x <> d).
  { destruct j as [|j].
    - destruct (J eq_refl) as [I X]. exists (repeat c i), c. cbn [repeat]. rewrite !app_nil_r. unfold u. destruct i; [lia|]. rewrite rep_snoc. auto.
    - exists (u :: repeat c i ++ repeat y j), y. split; [rewrite <- rep_snoc || idtac; cbn [app]; f_equal; rewrite <- app_assoc, rep_snoc; reflexivity|]. split; [|tauto].
      unfold u. destruct i as [|i]; [constructor; [unfold star_match; auto|apply S1]|]. rewrite app_comm_cons, <- rep_snoc, <- app_assoc. apply Forall2_app; [apply S0|]. constructor; [unfold star_match; auto|apply S1]. }
  destruct W as (m & x & W & FW & X).
  apply (lost star_eq star_match star_eq_ok nd u (repeat c i ++ repeat y j ++ d :: b) (m ++ [x]) (d :: b)).
  - rewrite ND. destruct (repeat c i), (repeat 42 j); discriminate.
  - apply nz_cons; auto.
  - rewrite ND. apply Forall2_app; [apply S0|]. apply Forall2_app; [apply S1|apply S0].
  - rewrite <- W. cbn [app]. rewrite <- app_assoc. reflexivity.
  - exists m, x, (repeat c i ++ repeat 42 j), d, b. rewrite ND, <- app_assoc. repeat split; auto. unfold star_match. intros [?|?]; auto.
  - apply (f_equal zlen) in W. revert W. unfold zlen. cbn [length]. rewrite !app_length, !repeat_length. cbn [length]. lia.
Qed.

Lemma scan_stars nd t r : repeated_stars nd -> scan star_match nd t r -> forall k, occurs star_match t nd k -> exists j, r = Some j /\ 0 <= j <= k.
Proof.
  intros (c & u & v & E0 & F & G) S. apply scan_first with (nd := nd); [|exact S]. intros a n b E x NR i I.
  assert (N : n <> 42) by (intros ->; apply NR; left; reflexivity).
  assert (L : zlen a < zlen u). { destruct (Z_lt_le_dec (zlen a) (zlen u)) as [L|L]; [exact L|exfalso]. apply N. symmetry.
    replace n with (znth 0 v (zlen a - zlen u)).
    - apply (Forall_znth star_match (eq 42)); [exact G|]. apply (f_equal zlen) in E. rewrite E0 in E. rewrite !zlen_app, zlen_cons in E. zpos. lia.
    - rewrite <- (znth_app_mid 0 a n b (zlen a) eq_refl), <- E, E0. unfold znth. rewrite app_nth2 by (unfold zlen in *; lia). f_equal. unfold zlen. lia. }
  assert (NC : n = c). { assert (X : n = znth 0 u (zlen a)). { rewrite <- (znth_app_mid 0 a n b (zlen a) eq_refl), <- E, E0. unfold znth. rewrite app_nth1 by (unfold zlen in *; lia). reflexivity. }
    rewrite X. symmetry. apply (Forall_znth star_match (eq c)); [exact F|]. zpos. lia. }
  assert (X : znth 0 nd i = c). { rewrite E0. unfold znth. rewrite app_nth1 by (unfold zlen in *; lia). symmetry. apply (Forall_znth star_match (eq c)); [exact F|lia]. }
  rewrite X, <- NC. exact NR.
Qed.
Lemma stars_shape nd ndrest : nd <> [] -> nz nd -> ~ (exists text, nz text /\ occurs star_match text nd 1 /\ strstar (text ++ [0]) (nd ++ ndrest) (zlen nd) = Ret None) -> repeated_stars nd.
Proof.
  intros Ne N H. destruct nd as [|c l]; [congruence|]. destruct (Z.eq_dec c 42) as [->|C].
  - destruct (run_split 42 l) as [F|(a & d & b & -> & F & D)]; [exists 42, (42 :: l), []; rewrite app_nil_r; auto|]. exfalso. apply H.
    replace (42 :: a ++ d :: b) with (repeat 1 0 ++ repeat 42 (S (length a)) ++ d :: b) in * by (cbn [repeat app]; now rewrite <- Forall_rep by exact F).
    apply star_lost; auto; try lia; discriminate.
  - destruct (run_split c l) as [F|(a & d & b & -> & F & D)]; [exists c, (c :: l), []; rewrite app_nil_r; auto|].
    destruct (Z.eq_dec d 42) as [->|D42].
    + destruct (run_split 42 b) as [G|(a' & d' & b' & -> & G & D')].
      * exists c, (c :: a), (42 :: b). auto.
      * exfalso. apply H. replace (c :: a ++ 42 :: a' ++ d' :: b') with (repeat c (S (length a)) ++ repeat 42 (S (length a')) ++ d' :: b') in * by (cbn [repeat app]; now rewrite <- !Forall_rep by assumption).
        apply star_lost; auto; try lia; discriminate.
    + exfalso. apply H. replace (c :: a ++ d :: b) with (repeat c (S (length a)) ++ repeat 42 0 ++ d :: b) in * by (cbn [repeat app]; now rewrite <- !Forall_rep by assumption).
      apply star_lost; auto; lia.
Qed.
