(** Proofs about optparser. *)
From Verif Require Import Base Bits Cstr M_stringptr M_str P_str M_opt S_opt.

(** a name of an option: not empty, no leading '-', no '=' *)
Section Name.
Variables (f r : list Z).
Hypothesis F0 : f <> [].
Hypothesis F1 : znth 0 f 0 <> 45.
Hypothesis Fn : nz f.
Definition spf := mkSp (f ++ 0 :: r) 0 (zlen f).
Lemma f_pos : 0 < zlen f.
Proof. destruct f; [easy|]. zl. zpos. lia. Qed.

Lemma name_ok s : nz s -> exists o, op_name (s ++ [0]) (zlen f) = Ret o /\
  match o with
  | None => forall t, s <> 45 :: t
  | Some o => exists p t, s = p ++ t /\ zlen p = o /\ forall x, (s = 45 :: f ++ x \/ 1 < zlen f /\ s = 45 :: 45 :: f ++ x) <-> t = f ++ x
  end.
Proof.
  intros N. unfold op_name. destruct s as [|c s]; cbn [app].
  { exists None. split; [reflexivity|]. discriminate. }
  change (zread (c :: s ++ [0]) 0) with (Ret c). cbn [bind]. destruct (Z.eqb_spec c 45) as [->|Nc].
  2: { exists None. split; [reflexivity|]. intros t E. congruence. }
  destruct (Z.ltb_spec 1 (zlen f)) as [L|L].
  - destruct s as [|d s]; cbn [app].
    + change (zread [45; 0] 1) with (Ret 0). cbn [bind Z.eqb]. eexists. split; [reflexivity|]. exists [45], []. split; [reflexivity|]. split; [reflexivity|]. intros x. destruct f as [|y g]; [easy|]. cbn [app]. split; [intros [E|[_ E]]; discriminate|discriminate].
    + change (zread (45 :: d :: s ++ [0]) 1) with (Ret d). cbn [bind]. destruct (Z.eqb_spec d 45) as [->|Nd].
      * eexists. split; [reflexivity|]. exists [45; 45], s. split; [reflexivity|]. split; [reflexivity|]. intros x. split.
        -- intros [E|[_ E]]; [|congruence]. destruct f as [|y g]; [easy|]. cbn [app] in E. injection E as <- _. now elim F1.
        -- intros ->. right. split; [assumption|reflexivity].
      * eexists. split; [reflexivity|]. exists [45], (d :: s). split; [reflexivity|]. split; [reflexivity|]. intros x. split.
        -- intros [E|[_ E]]; congruence.
        -- intros ->. now left.
  - eexists. split; [reflexivity|]. exists [45], s. split; [reflexivity|]. split; [reflexivity|]. intros x. split.
    + intros [E|[? _]]; [congruence|lia].
    + intros ->. now left.
Qed.
Lemma memcmp_name p t q i : i = zlen p -> zlen t = zlen f -> exists b, memcmp0 (sb spf) (so spf) (p ++ t ++ q) i (zlen f) = Ret b /\ (b = true <-> t = f).
Proof.
  intros -> L. unfold memcmp0. cbn [sb so spf]. rewrite (zreads_at [] f (0 :: r)) by auto. cbn [bind]. rewrite zreads_at by auto. cbn [bind]. eexists. split; [reflexivity|]. destruct (list_eq_dec Z.eq_dec f t); split; congruence.
Qed.
Definition bufs (args : list (list Z)) : list (list Z) := map (fun s => s ++ [0]) args.
Lemma buf_read args i : 0 <= i < zlen args -> zread (bufs args) i = Ret (znth [] args i ++ [0]).
Proof.
  intros H. rewrite (zread_ok [0]) by (unfold bufs; zl; lia). f_equal. unfold bufs. rewrite (znth_map (fun s => s ++ [0]) [] [0]); [reflexivity|lia].
Qed.
Lemma nz_nth args i : Forall nz args -> 0 <= i < zlen args -> nz (znth [] args i).
Proof. intros H L. rewrite Forall_forall in H. apply H. apply znth_In. lia. Qed.
Section Args.
Variable args : list (list Z).
Hypothesis An : Forall nz args.
Definition st := mkOp (zlen args) (bufs args).

Lemma hasflag_loop_ok fuel : forall i, 0 <= i -> Z.max 0 (zlen args - i) < Z.of_nat fuel -> exists b, hasflag_loop fuel st spf i = Ret b /\
  (b = 1 /\ (exists j, i <= j < zlen args /\ option_word f (znth [] args j)) \/ b = 0 /\ forall j, i <= j < zlen args -> ~ option_word f (znth [] args j)).
Proof.
  induction fuel as [|fuel IH]; intros i I F; [lia|].
  cbn [hasflag_loop argc argv st]. destruct (Z.ltb_spec i (zlen args)) as [L|L].
  2: { exists 0. split; [reflexivity|]. right. split; [reflexivity|]. intros j Hj. lia. }
  rewrite buf_read by lia. cbn [bind]. pose proof (nz_nth args i An ltac:(lia)) as N. change (sz spf) with (zlen f). destruct (name_ok _ N) as (o & -> & O). cbn [bind]. set (s := znth [] args i) in *.
  destruct (IH (i + 1) ltac:(lia) ltac:(lia)) as (b & Eb & B).
  assert (Skip : ~ option_word f s -> exists b, hasflag_loop fuel st spf (i + 1) = Ret b /\
    (b = 1 /\ (exists j, i <= j < zlen args /\ option_word f (znth [] args j)) \/ b = 0 /\ forall j, i <= j < zlen args -> ~ option_word f (znth [] args j))).
  { intros No. exists b. split; [assumption|]. destruct B as [[-> (j & Hj & W)]|[-> W]].
    - left. split; [reflexivity|]. exists j. split; [lia|assumption].
    - right. split; [reflexivity|]. intros j Hj. destruct (Z.eq_dec j i) as [->|]; [assumption|]. apply W. lia. }
  destruct o as [o|].
  2: { apply Skip. intros [E|[_ E]]; rewrite E in O; now eapply O. }
  destruct O as (p & t & Es & Lp & W). rewrite Es in N. apply nz_app in N as [_ Nt]. specialize (W []). rewrite app_nil_r in W.
  assert (Eb' : s ++ [0] = p ++ t ++ [0]) by (rewrite Es, <- app_assoc; reflexivity). rewrite Eb'. rewrite strlen_ok by auto. cbn [bind sz spf]. destruct (Z.eqb_spec (zlen t) (zlen f)) as [E|E].
  - destruct (memcmp_name p t [0] o ltac:(auto) E) as (c & Ec & C). rewrite E. rewrite Ec. cbn [bind]. destruct c.
    + exists 1. split; [reflexivity|]. left. split; [reflexivity|]. exists i. split; [lia|]. unfold option_word. apply W. now apply C.
    + apply Skip. unfold option_word. rewrite W. intros ->. destruct C as [_ C]. specialize (C eq_refl). discriminate.
  - apply Skip. unfold option_word. rewrite W. congruence.
Qed.
(** strleneq *)
Lemma strleneq_ok t : forall fuel p n, nz t -> 0 <= n -> n + zlen t < 2 ^ 64 -> (length t < fuel)%nat -> exists l, strleneq fuel (p ++ t ++ [0]) (zlen p) n = Ret l /\
  ((~ In 61 t /\ l = 0) \/ exists a v, t = a ++ 61 :: v /\ ~ In 61 a /\ l = n + zlen a).
Proof.
  induction t as [|c t IH]; intros fuel p n N P L F; (destruct fuel as [|fuel]; [cbn in F; lia|]); cbn [strleneq app].
  - rewrite zread_at by reflexivity. cbn [bind Z.eqb negb andb]. exists 0. split; [reflexivity|]. left. split; [intros []|reflexivity].
  - apply nz_cons in N as [N0 N]. rewrite zread_at by reflexivity. cbn [bind]. replace (c =? 0) with false by lia. cbn [negb andb]. destruct (Z.eqb_spec c 61) as [->|N1]; cbn [negb].
    + exists n. split; [reflexivity|]. right. exists [], t. split; [reflexivity|]. split; [intros []|]. zl. lia.
    + rewrite zlen_cons in L. pose proof (zlen_nonneg t). rewrite u64_id by lia. assert (F' : (length t < fuel)%nat) by (cbn in F; lia). destruct (IH fuel (p ++ [c]) (n + 1) N ltac:(lia) ltac:(lia) F') as (l & El & Hl).
      rewrite <- app_assoc in El. cbn [app] in El. rewrite zlen_app in El. change (zlen [c]) with 1 in El. exists l. split; [exact El|]. destruct Hl as [[A B]|(a & v & E & A & B)].
      * left. split; [|assumption]. intros [X|X]; [now subst|easy].
      * right. exists (c :: a), v. split; [now rewrite E|]. split; [intros [X|X]; [now subst|easy]|]. zl. lia.
Qed.
Hypothesis Fe : ~ In 61 f.
Hypothesis Al : Forall (fun s => zlen s < 2 ^ 63) args.
Lemma split_eq a v x w : ~ In 61 a -> ~ In 61 x -> a ++ 61 :: v = x ++ 61 :: w -> a = x /\ v = w.
Proof.
  revert x. induction a as [|c a IH]; intros [|d x] A X E; cbn [app] in E.
  - injection E as <-. now split.
  - injection E as <- _. elim X. now left.
  - injection E as -> _. elim A. now left.
  - injection E as <- E. destruct (IH x) as [-> ->]; auto; intros ?; [apply A|apply X]; now right.
Qed.
Lemma get_loop_ok fuel : forall i, 1 <= i -> Z.max 0 (zlen args - i) < Z.of_nat fuel -> exists b, get_loop fuel st spf i = Ret b /\
  match b with
  | Some (k, off) => exists j v, i <= j /\ gives args f j v /\ (forall j' v', i <= j' < j -> ~ gives args f j' v') /\ exists p, zread (argv st) k = Ret (p ++ v ++ [0]) /\ zlen p = off
  | None => forall j v, i <= j -> ~ gives args f j v
  end.
Proof.
  induction fuel as [|fuel IH]; intros i I F; [lia|].
  cbn [get_loop argc argv st]. destruct (Z.ltb_spec i (zlen args)) as [L|L].
  2: { exists None. split; [reflexivity|]. intros j v Hj [G _]. lia. }
  rewrite buf_read by lia. cbn [bind]. pose proof (nz_nth args i An ltac:(lia)) as N. change (sz spf) with (zlen f). destruct (name_ok _ N) as (o & -> & O). cbn [bind].
  assert (Ls : zlen (znth [] args i) < 2 ^ 63). { rewrite Forall_forall in Al. apply Al. apply znth_In. lia. }
  destruct (IH (i + 1) ltac:(lia) ltac:(lia)) as (b & Eb & B).
  assert (Skip : (forall v, ~ gives args f i v) -> exists b, get_loop fuel st spf (i + 1) = Ret b /\
    match b with
    | Some (k, off) => exists j v, i <= j /\ gives args f j v /\ (forall j' v', i <= j' < j -> ~ gives args f j' v') /\ exists p, zread (argv st) k = Ret (p ++ v ++ [0]) /\ zlen p = off
    | None => forall j v, i <= j -> ~ gives args f j v
    end).
  { intros No. exists b. split; [assumption|]. destruct b as [[k off]|].
    - destruct B as (j & v & Hj & G & M & T). exists j, v. split; [lia|]. split; [assumption|]. split; [|assumption]. intros j' v' Hj'. destruct (Z.eq_dec j' i) as [->|]; [apply No|]. apply M. lia.
    - intros j v Hj. destruct (Z.eq_dec j i) as [->|]; [apply No|]. apply B. lia. }
  unfold gives in Skip at 1. set (s := znth [] args i) in *. destruct o as [o|].
  2: { apply Skip. intros v [_ [[E|[_ E]]|[[E|[_ E]] _]]]; rewrite E in O; now eapply O. }
  destruct O as (p & t & Es & Lp & W). rewrite Es in N. apply nz_app in N as [_ Nt]. pose proof (W []) as W0. rewrite app_nil_r in W0.
  assert (Eb' : s ++ [0] = p ++ t ++ [0]) by (rewrite Es, <- app_assoc; reflexivity). rewrite Eb'. subst o. cbn [sb so sz spf].
  assert (Lt : zlen p + zlen t < 2 ^ 63) by (rewrite Es, zlen_app in Ls; lia). pose proof (zlen_nonneg p) as Pp.
  destruct (strleneq_ok t (S (length (p ++ t ++ [0]))) p 0 Nt ltac:(lia) ltac:(lia) ltac:(rewrite !app_length; lia)) as (l & -> & Hl). cbn [bind].
  pose proof f_pos as Pf. destruct Hl as [[No ->]|(a & v & Et & Na & ->)].
  - replace (0 =? zlen f) with false by lia. cbn [bind Z.eqb]. pose proof (streq_at_ok f t (S (length (f ++ 0 :: r))) [] p r [] Fn Nt ltac:(rewrite app_length; lia)) as Q.
    cbn [app] in Q. change (zlen []) with 0 in Q. rewrite Q. cbn [bind].
    assert (Nv : forall v, ~ option_value f s v). { intros v V. unfold option_value in V. apply (W (61 :: v)) in V. apply No. rewrite V. apply in_or_app. right. now left. }
    destruct (list_eq_dec Z.eq_dec f t) as [E|E]; cbn [andb].
    + destruct (Z.ltb_spec (i + 1) (zlen args)) as [L1|L1].
      * eexists. split; [reflexivity|]. cbn beta iota. exists i, (znth [] args (i + 1)). split; [lia|]. split.
        -- split; [lia|]. right. split; [|split; [lia|reflexivity]]. apply W0. now symmetry.
        -- split; [intros; lia|]. exists []. rewrite buf_read by lia. split; reflexivity.
      * apply Skip. intros v [_ [V|(_ & ? & _)]]; [now elim (Nv v)|lia].
    + apply Skip. intros v [_ [V|(V & _)]]; [now elim (Nv v)|]. unfold option_word in V. apply W0 in V. congruence.
  - assert (Nw : ~ option_word f s). { intros V. unfold option_word in V. apply W0 in V. apply Fe. rewrite <- V, Et. apply in_or_app. right. now left. }
    rewrite Z.add_0_l. destruct (Z.eqb_spec (zlen a) (zlen f)) as [E|E].
    + assert (Eb2 : p ++ t ++ [0] = p ++ a ++ (61 :: v ++ [0])) by (rewrite Et, <- app_assoc; reflexivity). rewrite Eb2.
      destruct (memcmp_name p a (61 :: v ++ [0]) (zlen p) eq_refl E) as (c & Ec & C). cbn [sb so spf] in Ec. rewrite E, Ec. cbn [bind]. destruct c.
      * eexists. split; [reflexivity|]. cbn beta iota. exists i, v. split; [lia|]. split.
        -- split; [lia|]. left. apply W. rewrite Et. f_equal. now apply C.
        -- split; [intros; lia|]. exists (p ++ a ++ [61]). rewrite buf_read by lia. fold s. rewrite Eb', Eb2. split; [f_equal; rewrite <- !app_assoc; reflexivity|]. zl. lia.
      * replace (zlen f =? 0) with false by lia. cbn [bind andb]. apply Skip. intros w [_ [V|[V _]]]; [|easy]. unfold option_value in V. apply (W (61 :: w)) in V. rewrite Et in V. apply split_eq in V as [V _]; auto.
        destruct C as [_ C]. specialize (C V). discriminate.
    + cbn [bind]. destruct (Z.eqb_spec (zlen a) 0) as [E0|E0].
      * destruct a; [|zl; pose proof (zlen_nonneg a); lia]. cbn [app] in Et. pose proof (streq_at_ok f t (S (length (f ++ 0 :: r))) [] p r [] Fn Nt ltac:(rewrite app_length; lia)) as Q.
        cbn [app] in Q. change (zlen []) with 0 in Q. rewrite Q. cbn [bind]. destruct (list_eq_dec Z.eq_dec f t) as [X|X]; [elim Fe; rewrite X, Et; now left|]. cbn [andb].
        apply Skip. intros w [_ [V|[V _]]]; [|easy]. unfold option_value in V. apply (W (61 :: w)) in V. rewrite Et in V. change (61 :: v) with ([] ++ 61 :: v) in V. apply split_eq in V as [V _]; auto.
      * cbn [bind andb]. apply Skip. intros w [_ [V|[V _]]]; [|easy]. unfold option_value in V. apply (W (61 :: w)) in V. rewrite Et in V. apply split_eq in V as [V _]; auto. congruence.
Qed.
End Args.
End Name.
