(** find_identical_files on trees. *)
From Verif Require Import Base M_ex S_ex P_ex2 M_fitree S_fitree D_fitree.

Lemma last_slash f : f <> [] -> (znth 0 f (zlen f - 1) = 47 <-> is_sub f).
Proof.
  intros N. destruct (exists_last N) as (n & x & ->). rewrite zlen_app. change (zlen [x]) with 1. rewrite znth_app2 by lia. replace (zlen n + 1 - 1 - zlen n) with 0 by lia. change (znth 0 [x] 0) with x. split.
  - intros ->. now exists n. - intros (m & E). apply app_inj_tail in E. tauto.
Qed.
Lemma ends_sub f : endswithchar f 47 = true <-> is_sub f.
Proof.
  unfold endswithchar. destruct f as [|x f]. - cbn. split; [discriminate|]. intros (n & E). now destruct n.
  - replace (zlen (x :: f) =? 0) with false by (rewrite zlen_cons; pose proof (zlen_nonneg f); lia). rewrite Z.eqb_eq. apply last_slash. discriminate.
Qed.
Lemma in_sub f l : existsb (fun g => if list_eq_dec Z.eq_dec g f then true else false) l = true <-> In f l.
Proof.
  rewrite existsb_exists. split; [intros (g & G & E); destruct (list_eq_dec Z.eq_dec g f); congruence|]. intros I. exists f. split; [exact I|]. destruct (list_eq_dec Z.eq_dec f f); congruence.
Qed.
Lemma names_in d1 d2 f : both_slash d1 d2 -> full_names d1 d2 f = (in_dir d1 f, in_dir d2 f).
Proof. intros (N1 & N2 & E). apply full_names_ok; auto. rewrite !last_slash by auto. exact E. Qed.
Lemma in_dir_pre d : exists pre, pre <> [] /\ forall g, in_dir d g = pre ++ g.
Proof.
  unfold in_dir. destruct (Z.eqb_spec (znth 0 d (zlen d - 1)) 47) as [E|E].
  - exists d. split; [|reflexivity]. intros ->. cbn in E. discriminate.
  - exists (d ++ [47]). split; [now destruct d|]. intros g. now rewrite <- app_assoc.
Qed.
Lemma in_dir_slash d1 d2 f : is_sub f -> both_slash (in_dir d1 f) (in_dir d2 f).
Proof.
  intros (n & ->). destruct (in_dir_pre d1) as (p & Np & P), (in_dir_pre d2) as (q & Nq & Q). rewrite P, Q. split; [now destruct p|]. split; [now destruct q|]. split; intros _; eexists; rewrite app_assoc; reflexivity.
Qed.
Lemma in_dir_sub d f g : is_sub f -> in_dir (in_dir d f) g = in_dir d f ++ g.
Proof.
  intros F. unfold in_dir at 1. assert (N : in_dir d f <> []) by apply (in_dir_slash d d f F). replace (znth 0 (in_dir d f) (zlen (in_dir d f) - 1)) with 47; [reflexivity|]. symmetry. apply last_slash; [exact N|].
  destruct F as (n & ->). destruct (in_dir_pre d) as (p & _ & P). rewrite P. exists (p ++ n). now rewrite app_assoc.
Qed.
Lemma cut_slash a b s t : ~ In 47 a -> ~ In 47 b -> a ++ 47 :: s = b ++ 47 :: t -> a = b /\ s = t.
Proof.
  revert b. induction a as [|x a IH]; intros b A B E; destruct b as [|y b]; cbn in E.
  - injection E as ->. auto. - injection E as <- _. exfalso. apply B. now left. - injection E as -> _. exfalso. apply A. now left.
  - injection E as -> E. destruct (IH b) as [-> ->]; auto; intros I; [apply A|apply B]; now right.
Qed.

Section T.
Variables (ls : list Z -> Z * list (list Z)) (size : list Z -> Z) (opn : list Z -> option (list Z)) (mode : Z).
Hypothesis (Hm : mode = 0 \/ mode = 1).
Notation pr := (printed (fun d => snd (ls d)) (file opn) (mode = 0)).

(** printed names extend the directory's by a name and, below a subdirectory, more *)
Lemma printed_shape d1 d2 p : pr d1 d2 p -> exists f s, In f (snd (ls d1)) /\ p = in_dir d1 f ++ s.
Proof using.
  intros H. destruct H as [d1 d2 f I1 I2 N E|d1 d2 f p I1 I2 N H].
  - exists f, []. rewrite app_nil_r. auto.
  - exists f. assert (G : exists s, p = in_dir d1 f ++ s).
    { clear I1 I2. remember (in_dir d1 f) as e1 eqn:E1. remember (in_dir d2 f) as e2. revert d1 d2 f N E1 Heqe2. induction H as [e1 e2 g I1 I2 M E|e1 e2 g q I1 I2 M H IH]; intros d1 d2 f N -> ->.
      - exists g. now apply in_dir_sub. - destruct (IH _ _ g M eq_refl eq_refl) as (s & ->). rewrite in_dir_sub by exact N. exists (g ++ s). now rewrite app_assoc. }
    destruct G as (s & ->). exists s. auto.
Qed.

Definition one (d1 d2 f p : list Z) : Prop :=
  In f (snd (ls d2)) /\ ((~ is_sub f /\ (mode = 0 <-> file opn (in_dir d1 f) = file opn (in_dir d2 f)) /\ p = in_dir d1 f) \/ (is_sub f /\ pr (in_dir d1 f) (in_dir d2 f) p)).
Lemma pr_one d1 d2 p : pr d1 d2 p <-> exists f, In f (snd (ls d1)) /\ one d1 d2 f p.
Proof using.
  split.
  - intros H. destruct H as [d1 d2 f I1 I2 N E|d1 d2 f p I1 I2 N H]; exists f; (split; [exact I1|]); (split; [exact I2|]); [left|right]; auto.
  - intros (f & I1 & I2 & [(N & E & ->)|(N & H)]); [now constructor|eapply PrSub; eauto].
Qed.
(** the paths printed for two names of a listing differ *)
Lemma one_disjoint d1 d2 f g p : name_ok f -> name_ok g -> one d1 d2 f p -> one d1 d2 g p -> f = g.
Proof using.
  intros (a & Na & A & Fa) (b & Nb & B & Fb) (_ & O1) (_ & O2). destruct (in_dir_pre d1) as (pre & _ & P).
  assert (X : forall h a, ~ In 47 a -> (h = a \/ h = a ++ [47]) -> is_sub h -> h = a ++ [47]). { clear. intros h a A [->| ->] H; [|reflexivity]. destruct H as (n & ->). exfalso. apply A. rewrite in_app_iff. right. now left. }
  assert (Y : forall h a, (h = a \/ h = a ++ [47]) -> ~ is_sub h -> h = a). { clear. intros h a [->| ->] H; [reflexivity|]. exfalso. apply H. now exists a. }
  assert (K : forall h, is_sub h -> pr (in_dir d1 h) (in_dir d2 h) p -> exists s, p = in_dir d1 h ++ s). { clear - Hm. intros h Hs H. apply printed_shape in H as (g & s & _ & ->). rewrite in_dir_sub by exact Hs. exists (g ++ s). now rewrite <- app_assoc. }
  destruct O1 as [(N1 & _ & E1)|(N1 & H1)], O2 as [(N2 & _ & E2)|(N2 & H2)].
  - rewrite E1, !P in E2. now apply app_inv_head in E2.
  - destruct (K g N2 H2) as (s & E2). rewrite E1, !P, <- app_assoc in E2. apply app_inv_head in E2. rewrite (X g b B Fb N2) in E2. rewrite (Y f a Fa N1) in E2. exfalso. apply A. rewrite E2, <- app_assoc, in_app_iff. right. now left.
  - destruct (K f N1 H1) as (s & E1). rewrite E2, !P, <- app_assoc in E1. apply app_inv_head in E1. rewrite (X f a A Fa N1) in E1. rewrite (Y g b Fb N2) in E1. exfalso. apply B. rewrite E1, <- app_assoc, in_app_iff. right. now left.
  - destruct (K f N1 H1) as (s & E1), (K g N2 H2) as (t & E2). rewrite E1, !P, <- !app_assoc in E2. apply app_inv_head in E2. rewrite (X f a A Fa N1), (X g b B Fb N2), <- !app_assoc in E2. apply cut_slash in E2 as [E2 _]; auto. now rewrite (X f a A Fa N1), (X g b B Fb N2), E2.
Qed.

Lemma tree_ok off n : (forall a b, off a b = 0) -> forall d1 d2, both_slash d1 d2 -> trees ls size opn n d1 d2 ->
  exists ps, tree_path ls size opn mode off n d1 d2 = Ret (ps, 0) /\ NoDup ps /\ forall p, In p ps <-> pr d1 d2 p.
Proof using Hm.
  intros Ho. induction n as [|n IH]; intros d1 d2 B T; [destruct T|]. cbn [trees] in T. destruct T as (E1 & E2 & ND & NO & T). cbn [tree_path].
  setoid_rewrite pr_one. destruct (ls d1) as [r1 fl1] eqn:L1. destruct (ls d2) as [r2 fl2] eqn:L2. cbn [fst snd] in *. subst r1 r2. cbn [Z.eqb negb].
  assert (TT : forall f, In f fl1 -> True) by auto. revert ND NO T. clear TT L1. induction fl1 as [|f fs IHf]; intros ND NO T.
  - exists []. rewrite Ho. split; [reflexivity|]. split; [constructor|]. intros p. split; [intros []|intros (f & [] & _)].
  - apply NoDup_cons_iff in ND as [NI ND]. destruct (IHf ND (fun g G => NO g (or_intror G)) (fun g G => T g (or_intror G))) as (qs & EQ & NQ & SQ).
    assert (DJ : forall p, one d1 d2 f p -> In p qs -> False). { intros p O1 I. apply SQ in I as (g & G & O2). rewrite (one_disjoint d1 d2 f g p (NO f (or_introl eq_refl)) (NO g (or_intror G)) O1 O2) in NI. auto. }
    destruct (existsb _ fl2) eqn:X; cbn [negb].
    2:{ exists qs. split; [exact EQ|]. split; [exact NQ|]. intros p. rewrite SQ. split; intros (g & G & O).
        - exists g. split; [now right|exact O]. - destruct G as [<-|G]; [|now exists g]. destruct O as (I & _). rewrite L2 in I. cbn in I. apply in_sub in I. congruence. }
    apply in_sub in X. destruct (T f (or_introl eq_refl) X) as [TS TF]. rewrite names_in by exact B.
    destruct (endswithchar f 47) eqn:EF.
    + apply ends_sub in EF. destruct (IH _ _ (in_dir_slash d1 d2 f EF) (TS EF)) as (ps & -> & NP & SP). cbn [bind Z.eqb negb]. rewrite EQ. cbn [bind]. exists (ps ++ qs). split; [reflexivity|].
      assert (O : forall p, In p ps <-> one d1 d2 f p). { intros p. rewrite SP. unfold one. rewrite L2. cbn [snd]. tauto. }
      split.
      * clear - NP NQ DJ O. induction ps as [|p ps IHp]; [exact NQ|]. apply NoDup_cons_iff in NP as [N1 N2]. cbn [app]. constructor.
        { rewrite in_app_iff. intros [I|I]; [auto|]. apply (DJ p); [apply O; now left|exact I]. }
        assert (G : forall ps' : list (list Z), NoDup ps' -> (forall p, In p ps' -> ~ In p qs) -> NoDup (ps' ++ qs)). { clear - NQ. induction ps' as [|a ps' IHa]; intros N D; [exact NQ|]. apply NoDup_cons_iff in N as [N1 N2]. cbn [app]. constructor; [rewrite in_app_iff; intros [I|I]; [auto|apply (D a); [now left|exact I]]|]. apply IHa; auto. intros q Q. apply D. now right. }
        apply G; [exact N2|]. intros q Q I. apply (DJ q); [apply O; now right|exact I].
      * intros p. rewrite in_app_iff, O, SQ. split.
        { intros [H|(g & G & H)]; [exists f; split; [now left|exact H]|exists g; split; [now right|exact H]]. }
        { intros (g & [<-|G] & H); [now left|right; now exists g]. }
    + assert (NS : ~ is_sub f) by (rewrite <- ends_sub, EF; discriminate). destruct (TF NS) as (c1 & c2 & O1 & O2 & S1 & S2).
      set (pb := match list_eq_dec Z.eq_dec c1 c2 with left _ => mode =? 0 | right _ => negb (mode =? 0) end).
      assert (PB : (if negb (size (in_dir d1 f) =? size (in_dir d2 f)) then Ret (negb (mode =? 0)) else let* c := compare_opened opn (in_dir d1 f) (in_dir d2 f) in Ret (c =? mode)) = Ret pb).
      { unfold compare_opened. rewrite O1, O2, S1, S2. subst pb. destruct (Z.eqb_spec (zlen c1) (zlen c2)) as [E|E]; cbn [negb].
        - rewrite compare_files_ok by exact E. cbn [bind]. destruct (list_eq_dec Z.eq_dec c1 c2); destruct Hm as [->| ->]; reflexivity.
        - destruct (list_eq_dec Z.eq_dec c1 c2); [congruence|reflexivity]. }
      rewrite PB. cbn [bind]. rewrite EQ. cbn [bind]. eexists. split; [reflexivity|].
      assert (O : pb = true <-> (mode = 0 <-> file opn (in_dir d1 f) = file opn (in_dir d2 f))). { unfold file. rewrite O1, O2. subst pb. destruct (list_eq_dec Z.eq_dec c1 c2) as [e|e]; destruct (Z.eqb_spec mode 0) as [m|m]; cbn; split; try tauto; try discriminate; intros H; tauto. }
      assert (OO : forall p, one d1 d2 f p <-> pb = true /\ p = in_dir d1 f). { intros p. unfold one. rewrite L2. cbn [snd]. rewrite O. tauto. }
      split.
      * destruct pb; [|exact NQ]. cbn [app]. constructor; [|exact NQ]. intros I. apply (DJ (in_dir d1 f)); [apply OO; auto|exact I].
      * intros p. rewrite in_app_iff, SQ. transitivity (one d1 d2 f p \/ exists g, In g fs /\ one d1 d2 g p).
        { rewrite OO. destruct pb; cbn; intuition congruence. }
        split; [intros [H|(g & G & H)]; [exists f; split; [now left|exact H]|exists g; split; [now right|exact H]]|].
        intros (g & [<-|G] & H); [now left|right; now exists g].
Qed.

(** any value seen after the missing return: the same names, up to where it stops *)
Lemma tree_any off n : forall d1 d2 qs, both_slash d1 d2 -> trees ls size opn n d1 d2 -> tree_path ls size opn mode (fun _ _ => 0) n d1 d2 = Ret (qs, 0) ->
  exists ps r, tree_path ls size opn mode off n d1 d2 = Ret (ps, r) /\
    ((ps = qs /\ r = off d1 d2 /\ forall e1 e2, below ls d1 d2 e1 e2 -> off e1 e2 = 0) \/
     (exists t e1 e2, qs = ps ++ t /\ below ls d1 d2 e1 e2 /\ r = off e1 e2 /\ r <> 0)).
Proof using Hm.
  induction n as [|n IH]; intros d1 d2 qs B T; [destruct T|]. cbn [trees] in T. destruct T as (E1 & E2 & _ & _ & T). cbn [tree_path].
  assert (BW : forall e1 e2, below ls d1 d2 e1 e2 -> exists f, In f (snd (ls d1)) /\ In f (snd (ls d2)) /\ is_sub f /\ ((e1, e2) = (in_dir d1 f, in_dir d2 f) \/ below ls (in_dir d1 f) (in_dir d2 f) e1 e2)).
  { intros e1 e2 H. destruct H; exists f; auto. }
  assert (BB : forall f e1 e2, In f (snd (ls d1)) -> In f (snd (ls d2)) -> is_sub f -> ((e1, e2) = (in_dir d1 f, in_dir d2 f) \/ below ls (in_dir d1 f) (in_dir d2 f) e1 e2) -> below ls d1 d2 e1 e2).
  { intros f e1 e2 I1 I2 S [E|H]; [injection E as -> ->; now constructor|eapply BDeep; eauto]. }
  destruct (ls d1) as [r1 fl1]. destruct (ls d2) as [r2 fl2]. cbn [fst snd] in *. subst r1 r2. cbn [Z.eqb negb].
  enough (G : forall fs qs, (forall f, In f fs -> In f fl1) ->
    (fix loop (fs : list (list Z)) : out (list (list Z) * Z) := match fs with [] => Ret ([], 0) | f :: fs =>
       if negb (existsb (fun g => if list_eq_dec Z.eq_dec g f then true else false) fl2) then loop fs else
       let (full1, full2) := full_names d1 d2 f in
       if endswithchar f 47 then let* (ps, ret) := tree_path ls size opn mode (fun _ _ => 0) n full1 full2 in if negb (ret =? 0) then Ret (ps, ret) else let* (qs, ret) := loop fs in Ret (ps ++ qs, ret)
       else let* print := if negb (size full1 =? size full2) then Ret (negb (mode =? 0)) else let* c := compare_opened opn full1 full2 in Ret (c =? mode) in
            let* (qs, ret) := loop fs in Ret ((if print : bool then [full1] else []) ++ qs, ret) end) fs = Ret (qs, 0) ->
    exists ps r, (fix loop (fs : list (list Z)) : out (list (list Z) * Z) := match fs with [] => Ret ([], off d1 d2) | f :: fs =>
       if negb (existsb (fun g => if list_eq_dec Z.eq_dec g f then true else false) fl2) then loop fs else
       let (full1, full2) := full_names d1 d2 f in
       if endswithchar f 47 then let* (ps, ret) := tree_path ls size opn mode off n full1 full2 in if negb (ret =? 0) then Ret (ps, ret) else let* (qs, ret) := loop fs in Ret (ps ++ qs, ret)
       else let* print := if negb (size full1 =? size full2) then Ret (negb (mode =? 0)) else let* c := compare_opened opn full1 full2 in Ret (c =? mode) in
            let* (qs, ret) := loop fs in Ret ((if print : bool then [full1] else []) ++ qs, ret) end) fs = Ret (ps, r) /\
    ((ps = qs /\ r = off d1 d2 /\ forall f e1 e2, In f fs -> In f fl2 -> is_sub f -> ((e1, e2) = (in_dir d1 f, in_dir d2 f) \/ below ls (in_dir d1 f) (in_dir d2 f) e1 e2) -> off e1 e2 = 0) \/
     (exists t e1 e2, qs = ps ++ t /\ below ls d1 d2 e1 e2 /\ r = off e1 e2 /\ r <> 0))).
  { intros E. destruct (G fl1 qs (fun f I => I) E) as (ps & r & R & H). exists ps, r. split; [exact R|]. destruct H as [(H1 & H2 & H3)|H]; [left|right; exact H]. split; [exact H1|]. split; [exact H2|]. intros e1 e2 W. destruct (BW e1 e2 W) as (f & I1 & I2 & Sf & O). eapply H3; eauto. }
  clear qs. induction fs as [|f fs IHf]; intros qs INC E.
  - injection E as <-. exists [], (off d1 d2). split; [reflexivity|]. left. split; [reflexivity|]. split; [reflexivity|]. intros f e1 e2 [].
  - destruct (existsb _ fl2) eqn:X; cbn [negb] in *.
    2:{ destruct (IHf qs (fun g G => INC g (or_intror G)) E) as (ps & r & R & H). exists ps, r. split; [exact R|]. destruct H as [(H1 & H2 & H3)|H]; [left|right; exact H]. split; [exact H1|]. split; [exact H2|]. intros g e1 e2 [<-|Gf] I2; [apply in_sub in I2; congruence|]. eapply H3; eauto. }
    apply in_sub in X. destruct (T f (INC f (or_introl eq_refl)) X) as [TS TF]. rewrite names_in in * by exact B. destruct (endswithchar f 47) eqn:EF.
    + apply ends_sub in EF. destruct (tree_ok (fun _ _ => 0) n (fun _ _ => eq_refl) _ _ (in_dir_slash d1 d2 f EF) (TS EF)) as (p0 & R0 & _). rewrite R0 in E. cbn [bind Z.eqb negb] in E.
      match type of E with bind ?l _ = _ => destruct l as [[q0 r0]| |] eqn:L end; cbn [bind] in E; try discriminate. injection E as <- ->.
      destruct (IH _ _ p0 (in_dir_slash d1 d2 f EF) (TS EF) R0) as (ps & r & -> & H). cbn [bind]. destruct H as [(-> & -> & H3)|(t & e1 & e2 & -> & W & -> & NZ)].
      * destruct (Z.eqb_spec (off (in_dir d1 f) (in_dir d2 f)) 0) as [Z0|Z0]; cbn [negb].
        -- destruct (IHf q0 (fun g G => INC g (or_intror G)) eq_refl) as (ps & r & -> & H). cbn [bind]. do 2 eexists. split; [reflexivity|]. destruct H as [(-> & -> & H4)|(t & e1 & e2 & -> & W & -> & NZ)].
           ++ left. split; [reflexivity|]. split; [reflexivity|]. intros g e1 e2 [<-|Gf] I2 Sg O; [|eapply H4; eauto]. destruct O as [O|O]; [injection O as -> ->; exact Z0|now apply H3].
           ++ right. exists t, e1, e2. split; [now rewrite app_assoc|auto].
        -- do 2 eexists. split; [reflexivity|]. right. exists q0, (in_dir d1 f), (in_dir d2 f). split; [reflexivity|]. split; [|auto]. eapply BB; eauto. apply INC. now left.
      * rewrite (proj2 (Z.eqb_neq _ _) NZ). cbn [negb]. do 2 eexists. split; [reflexivity|]. right. exists (t ++ q0), e1, e2. split; [now rewrite app_assoc|]. split; [|auto]. eapply BB; [apply INC; now left|exact X|exact EF|now right].
    + match type of E with bind ?l _ = _ => destruct l as [pb| |] end; cbn [bind] in *; try discriminate. match type of E with bind ?l _ = _ => destruct l as [[q0 r0]| |] eqn:L end; cbn [bind] in E; try discriminate. injection E as <- ->.
      destruct (IHf q0 (fun g G => INC g (or_intror G)) eq_refl) as (ps & r & -> & H). cbn [bind]. do 2 eexists. split; [reflexivity|]. destruct H as [(-> & -> & H4)|(t & e1 & e2 & -> & W & -> & NZ)].
      * left. split; [reflexivity|]. split; [reflexivity|]. intros g e1 e2 [<-|Gf] I2 Sg O; [|eapply H4; eauto]. apply ends_sub in Sg. congruence.
      * right. exists t, e1, e2. split; [now rewrite app_assoc|auto].
Qed.
End T.
