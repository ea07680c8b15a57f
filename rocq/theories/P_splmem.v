(** Proofs about the splitting functions when the list cannot grow (C119). *)
From Verif Require Import Base Bits Cstr M_stringptr M_spl M_splmem S_stringptr S_splmem D_stringptr P_stringptr P_spl.

(** ---------- which entries are stored ---------- *)
Fixpoint adds (sc : list bool) (l : pl) (es : list (Z * Z)) : list bool * pl :=
  match es with [] => (sc, l) | e :: es => let '(sc, l) := pl_add sc l e in adds sc l es end.
Lemma adds_app es1 : forall sc l es2, adds sc l (es1 ++ es2) = let '(sc, l) := adds sc l es1 in adds sc l es2.
Proof. induction es1 as [|e es1 IH]; intros sc l es2; cbn [adds app]; [reflexivity|]. destruct (pl_add sc l e) as [sc' l']. apply IH. Qed.
Lemma fill a : forall its c sc, zlen its + zlen a <= c -> adds sc (mkPl its c) a = (sc, mkPl (its ++ a) c).
Proof.
  induction a as [|e a IH]; intros its c sc H; cbn [adds]; [now rewrite app_nil_r|]. revert H. zl. intros H. zpos. unfold pl_add. cbn [pitems pcapa].
  replace (zlen its =? c) with false by lia. rewrite IH by (zl; lia). now rewrite <- app_assoc.
Qed.
Lemma all es : forall l, exists l', adds [] l es = ([], l') /\ pitems l' = pitems l ++ es.
Proof.
  induction es as [|e es IH]; intros l; cbn [adds]; [exists l; now rewrite app_nil_r|]. unfold pl_add. cbn [next].
  destruct (_ =? _); destruct (IH (mkPl (pitems l ++ [e]) (if zlen (pitems l) =? pcapa l then pcapa l + 16 else pcapa l))) as (l' & E & P).
  - destruct (IH (mkPl (pitems l ++ [e]) (pcapa l + 16))) as (l2 & E2 & P2). exists l2. split; [exact E2|]. rewrite P2. cbn [pitems]. now rewrite <- app_assoc.
  - destruct (IH (mkPl (pitems l ++ [e]) (pcapa l))) as (l2 & E2 & P2). exists l2. split; [exact E2|]. rewrite P2. cbn [pitems]. now rewrite <- app_assoc.
Qed.
Lemma full n : forall es its sc, (length es <= n)%nat -> exists ks sc' c', adds sc (mkPl its (zlen its)) es = (sc', mkPl (its ++ ks) c') /\ kept sc es ks.
Proof.
  induction n as [|n IH]; intros es its sc H.
  { destruct es; [|cbn in H; lia]. exists [], sc, (zlen its). rewrite app_nil_r. split; [reflexivity|constructor]. }
  destruct es as [|e es]; [exists [], sc, (zlen its); rewrite app_nil_r; split; [reflexivity|constructor]|]. cbn [length] in H.
  destruct sc as [|[|] sc].
  - destruct (all (e :: es) (mkPl its (zlen its))) as ([its' c'] & E & P). cbn [pitems] in P. subst. exists (e :: es), [], c'. split; [exact E|constructor].
  - destruct (Z_le_gt_dec (zlen (e :: es)) 16) as [G|G].
    + exists (e :: es), sc, (zlen its + 16). split; [|apply KLast; revert G; zl; zpos; lia]. cbn [adds]. unfold pl_add. cbn [pitems pcapa]. rewrite Z.eqb_refl. cbn [next].
      rewrite fill by (revert G; zl; lia). now rewrite <- app_assoc.
    + destruct (zsplit 16 (e :: es)) as (b & xs & E & Lb); [lia|]. destruct b as [|e' b]; [cbn in Lb; lia|]. injection E as <- ->. assert (Lb' : zlen b = 15) by (revert Lb; zl; lia).
      destruct (IH xs (its ++ e :: b) sc) as (ks & sc' & c' & E & K); [rewrite app_length in H; lia|].
      exists ((e :: b) ++ ks), sc', c'. split; [|change (e :: b ++ xs) with ((e :: b) ++ xs); now apply KBlock]. cbn [adds]. unfold pl_add at 1. cbn [pitems pcapa]. rewrite Z.eqb_refl. cbn [next].
      rewrite adds_app. rewrite fill by (zl; lia).
      replace (zlen its + 16) with (zlen (its ++ e :: b)) by (zl; lia). rewrite <- app_assoc. cbn [app]. rewrite E. now rewrite <- app_assoc.
  - destruct (IH es its sc) as (ks & sc' & c' & E & K); [lia|]. exists ks, sc', c'. split; [|now constructor]. cbn [adds]. unfold pl_add. cbn [pitems pcapa]. rewrite Z.eqb_refl. cbn [next]. exact E.
Qed.
Lemma from_new es sc : exists ks sc' l', adds sc (mkPl [] 0) es = (sc', l') /\ pitems l' = ks /\ kept sc es ks.
Proof. destruct (full (length es) es [] sc) as (ks & sc' & c' & E & K); [lia|]. exists ks, sc', (mkPl ks c'). auto. Qed.

(** ---------- the loops store what M_spl.v hands over ---------- *)
Lemma splitc_same delim : forall fuel buf i ls acc r b sc l, splitc_loop fuel buf delim i ls acc = Ret (r, b) ->
  exists es, r = rev acc ++ es /\ splitc_mem_loop fuel sc l buf delim i ls = Ret (fst (adds sc l es), snd (adds sc l es), b).
Proof.
  induction fuel as [|fuel IH]; intros buf i ls acc r b sc l; cbn [splitc_loop splitc_mem_loop]; [discriminate|].
  destruct (i <=? sz buf); [|intros [= <- <-]; exists []; rewrite app_nil_r; auto].
  destruct (if i =? sz buf then _ else _) as [[|]| |]; cbn [bind]; try discriminate.
  - destruct (put0 buf i) as [buf'| |]; cbn [bind]; try discriminate. intros H. destruct (pl_add sc l (so buf + ls, u64 (i - ls))) as [sc' l'] eqn:EA.
    destruct (IH _ _ _ _ _ _ sc' l' H) as (es & -> & R). exists ((so buf + ls, u64 (i - ls)) :: es). cbn [rev adds]. rewrite EA. split; [now rewrite <- app_assoc|exact R].
  - apply IH.
Qed.
Lemma splits_same delim : forall fuel buf i ls acc r b sc l, splits_loop fuel buf delim i ls acc = Ret (r, b) ->
  exists es, r = rev acc ++ es /\ splits_mem_loop fuel sc l buf delim i ls = Ret (fst (adds sc l es), snd (adds sc l es), b).
Proof.
  induction fuel as [|fuel IH]; intros buf i ls acc r b sc l; cbn [splits_loop splits_mem_loop]; [discriminate|].
  destruct (i <=? sz buf); [|intros [= <- <-]; exists []; rewrite app_nil_r; auto].
  destruct (if i =? sz buf then _ else _) as [[|]| |]; cbn [bind]; try discriminate.
  - destruct (put0 buf i) as [buf'| |]; cbn [bind]; try discriminate. intros H. destruct (pl_add sc l (so buf + ls, u64 (i - ls))) as [sc' l'] eqn:EA.
    destruct (IH _ _ _ _ _ _ sc' l' H) as (es & -> & R). exists ((so buf + ls, u64 (i - ls)) :: es). cbn [rev adds]. rewrite EA. split; [now rewrite <- app_assoc|exact R].
  - apply IH.
Qed.
Lemma splitc_mem_ok sc buf d r b : stringptr_splitc buf d = Ret (r, b) ->
  exists sc' l, splitc_mem (true :: sc) buf d = Ret (sc', Some l, b) /\ kept sc r (pitems l).
Proof.
  intros H. unfold stringptr_splitc in H. unfold splitc_mem. cbn [next]. destruct (splitc_same _ _ _ _ _ _ _ _ sc (mkPl [] 0) H) as (es & -> & ->). cbn [bind rev app].
  destruct (from_new es sc) as (ks & sc' & l' & E & P & K). rewrite E. cbn [fst snd]. exists sc', l'. now subst.
Qed.
Lemma splits_mem_ok fuel sc buf d r b : stringptr_splits fuel buf d = Ret (r, b) ->
  exists sc' l, splits_mem fuel (true :: sc) buf d = Ret (sc', Some l, b) /\ kept sc r (pitems l).
Proof.
  intros H. unfold stringptr_splits in H. unfold splits_mem. cbn [next]. destruct (splits_same _ _ _ _ _ _ _ _ sc (mkPl [] 0) H) as (es & -> & ->). cbn [bind rev app].
  destruct (from_new es sc) as (ks & sc' & l' & E & P & K). rewrite E. cbn [fst snd]. exists sc', l'. now subst.
Qed.

(** ---------- facts about kept ---------- *)
Lemma part_refl {A} (xs : list A) : part xs xs. Proof. induction xs; [apply PNil|now apply PTake]. Qed.
Lemma part_app {A} (b xs ys : list A) : part xs ys -> part (b ++ xs) (b ++ ys). Proof. intros H. induction b; cbn; [auto|now apply PTake]. Qed.
Lemma kept_part {A} sc (xs ys : list A) : kept sc xs ys -> part xs ys.
Proof. induction 1; try (apply part_refl); [now constructor|now apply part_app]. Qed.
Lemma kept_true {A} sc (xs ys : list A) : kept sc xs ys -> Forall (eq true) sc -> xs = ys.
Proof. induction 1; intros F; auto; apply Forall_cons_iff in F as [F1 F2]; [discriminate|f_equal; auto]. Qed.
Lemma kept_map {A B} (f : A -> B) sc xs' ys' : kept sc xs' ys' -> forall xs, xs' = map f xs -> exists ys, kept sc xs ys /\ ys' = map f ys.
Proof.
  induction 1; intros l E.
  - destruct l; [|discriminate]. exists []. split; [constructor|reflexivity].
  - destruct l as [|y l]; [discriminate|]. injection E as -> ->. destruct (IHkept l eq_refl) as (ys' & K & ->). exists ys'. split; [now constructor|reflexivity].
  - exists l. subst. split; [apply KLast; revert H; unfold zlen; rewrite map_length; auto|reflexivity].
  - symmetry in E. apply map_eq_app in E as (l1 & l2 & -> & <- & <-). destruct (IHkept l2 eq_refl) as (ys' & K & ->). exists (l1 ++ ys'). split; [|now rewrite map_app].
    apply KBlock; auto. revert H; unfold zlen; now rewrite map_length.
  - exists l. subst. split; [constructor|reflexivity].
Qed.
Lemma kept_none {A} (xs : list A) sc : kept sc xs [] -> exists sc', sc = repeat false (length xs) ++ sc'.
Proof.
  intros K. remember [] as ys eqn:E. induction K; subst.
  - now exists sc.
  - destruct IHK as (sc' & ->); auto. now exists sc'.
  - cbn in H. lia.
  - destruct b; [cbn in H; lia|discriminate].
  - exists []. reflexivity.
Qed.
Lemma part_concat (ps ks : list (list Z)) : part ps ks -> zlen (concat ks) <= zlen (concat ps) /\ zlen ks <= zlen ps.
Proof. induction 1; cbn [concat]; zl; zpos; lia. Qed.

(** ---------- replace ---------- *)
Definition reads_as (src : list Z) (q : (Z * Z) * list Z) : Prop := snd (fst q) = zlen (snd q) /\ zreads src (fst (fst q)) (zlen (snd q)) = Ret (snd q).
Lemma part_Forall {A} (P : A -> Prop) xs ys : part xs ys -> Forall P xs -> Forall P ys.
Proof. induction 1; intros F; auto; apply Forall_cons_iff in F as [F1 F2]; [auto|constructor; auto]. Qed.
Fixpoint placed (off gap : Z) (ps : list (list Z)) : list ((Z * Z) * list Z) :=
  match ps with [] => [] | p :: ps => ((off, zlen p), p) :: placed (off + zlen p + gap) gap ps end.
Lemma placed_fst gap ps : forall off, map fst (placed off gap ps) = places off gap ps.
Proof. induction ps as [|p ps IH]; intros off; cbn [placed places map fst]; [reflexivity|]. now rewrite IH. Qed.
Lemma placed_snd gap ps : forall off, map snd (placed off gap ps) = ps.
Proof. induction ps as [|p ps IH]; intros off; cbn [placed map snd]; [reflexivity|]. now rewrite IH. Qed.
Lemma placed_reads gap ps : forall pre post, Forall (reads_as (pre ++ join gap ps ++ post)) (placed (zlen pre) (zlen gap) ps).
Proof.
  induction ps as [|p ps IH]; intros pre post; cbn [placed]; [constructor|]. constructor.
  - split; [reflexivity|]. cbn [fst snd]. destruct ps; cbn [join]; [now rewrite zreads_at|]. rewrite <- app_assoc. now rewrite zreads_at.
  - destruct ps as [|p2 ps]; [constructor|]. rewrite join_cons by discriminate. replace (zlen pre + zlen p + zlen gap) with (zlen (pre ++ p ++ gap)) by (zl; lia).
    replace (pre ++ (p ++ gap ++ join gap (p2 :: ps)) ++ post) with ((pre ++ p ++ gap) ++ join gap (p2 :: ps) ++ post) by (now rewrite <- !app_assoc). apply IH.
Qed.
Lemma replace_loop_gen src whit wt : holds whit wt -> forall l rp m rq ro w, Forall (reads_as src) l -> zlen m = zlen (join wt (map snd l)) -> ro + w = zlen rp ->
  0 <= w -> w + zlen m < 2 ^ 64 -> replace_loop (map fst l) src whit (rp ++ m ++ rq) ro w = Ret (rp ++ join wt (map snd l) ++ rq).
Proof.
  intros Hw. destruct (holds_size _ _ Hw) as [Sw Bw].
  induction l as [|[[o n] p] l IH]; intros rp m rq ro w F Lm Lr W0 W1.
  - cbn [map replace_loop join] in *. apply zlen_0 in Lm. now subst.
  - apply Forall_cons_iff in F as [[F1 F2] F]. cbn [fst snd] in F1, F2. subst n. cbn [map fst snd replace_loop]. cbn [map snd] in Lm.
    assert (EX : exists m1 m2, m = m1 ++ m2 /\ zlen m1 = zlen p /\ zlen m2 = zlen (join wt (p :: map snd l)) - zlen p).
    { destruct (zsplit (zlen p) m) as (m1 & m2 & -> & L1); [rewrite Lm; destruct (map snd l); [cbn [join]; zpos; lia|rewrite join_cons by congruence; zl; zpos; lia]|].
      exists m1, m2. split; auto. split; auto. revert Lm. zl. lia. }
    destruct EX as (m1 & m2 & -> & L1 & L2). revert W1. zl. intros W1. zpos.
    assert (C1 : (if zlen p =? 0 then Ret (rp ++ (m1 ++ m2) ++ rq, w)
                  else let* res := memcpy (rp ++ (m1 ++ m2) ++ rq) (ro + w) src o (zlen p) in Ret (res, u64 (w + zlen p)))
                 = Ret ((rp ++ p) ++ m2 ++ rq, w + zlen p)).
    { destruct (zlen p =? 0) eqn:E.
      - assert (Q : zlen p = 0) by lia. rewrite Q in *. apply zlen_0 in Q, L1. subst p m1. cbn [app]. rewrite app_nil_r. do 2 f_equal. lia.
      - rewrite u64_id by lia. unfold memcpy. rewrite F2. cbn [bind]. rewrite <- app_assoc. rewrite zwrites_at by (auto; lia). cbn [bind]. now rewrite <- !app_assoc. }
    rewrite C1. cbn [bind]. destruct l as [|q2 l].
    + cbn [map orb bind replace_loop join] in *. assert (Q : zlen m2 = 0) by lia. apply zlen_0 in Q. subst m2. cbn [app]. now rewrite <- !app_assoc.
    + set (qs := q2 :: l) in *. assert (NQ : map snd qs <> []) by (unfold qs; discriminate). rewrite (join_cons wt p (map snd qs)) in * by auto.
      assert (PL : match map fst qs with [] => true | _ => false end = false) by (unfold qs; reflexivity).
      rewrite PL. cbn [orb]. clear PL. revert L2. zl. intros L2.
      destruct (zsplit (zlen wt) m2) as (m3 & m4 & -> & L3); [zpos; lia|]. revert L2 W1. zl. intros L2 W1. zpos.
      assert (C2 : (if sz whit =? 0 then Ret ((rp ++ p) ++ (m3 ++ m4) ++ rq, w + zlen p)
                    else let* res := memcpy ((rp ++ p) ++ (m3 ++ m4) ++ rq) (ro + (w + zlen p)) (sb whit) (so whit) (sz whit) in Ret (res, u64 (w + zlen p + sz whit)))
                   = Ret ((rp ++ p ++ wt) ++ m4 ++ rq, w + zlen p + zlen wt)).
      { destruct (sz whit =? 0) eqn:E.
        - assert (Q : zlen wt = 0) by lia. rewrite Q in *. apply zlen_0 in Q, L3. subst wt m3. rewrite !app_nil_r. cbn [app]. do 2 f_equal. lia.
        - rewrite u64_id by lia. replace (ro + (w + zlen p)) with (zlen (rp ++ p)) by (zl; lia). rewrite <- (app_assoc m3).
          rewrite (memcpy_at (rp ++ p) m3 (m4 ++ rq) whit wt Hw) by lia. cbn [bind]. rewrite Sw. now rewrite <- !app_assoc. }
      rewrite C2. cbn [bind]. rewrite IH; [now rewrite <- !app_assoc|auto|lia|zl; lia|lia|lia].
Qed.
Lemma new_junk junk size : 0 <= size < 2 ^ 64 - 17 -> exists hd body, zlen hd = 16 /\ zlen body = size /\
  stringptr_new (Some junk) size = Ret (Some (mkSp (hd ++ body ++ [0]) 16 size)) /\ (forall i, 0 <= i < size -> znth 0 body i = junk (16 + i)).
Proof.
  intros H. destruct (new_ok junk size H) as (hd & body & L1 & L2 & E). exists hd, body. split; [auto|]. split; [auto|]. split; [auto|]. intros i Hi.
  cbn [stringptr_new] in E. rewrite u64_id in E by lia. pose proof (zlen_block junk (16 + size + 1) ltac:(lia)) as L.
  destruct (zsplit (16 + size) (block junk (16 + size + 1))) as (a & x & EB & La); [lia|]. rewrite EB in E, L. revert L. zl. intros L.
  destruct x as [|x [|]]; [revert L; change (zlen (@nil Z)) with 0; lia| |revert L; zl; zpos; lia]. rewrite zwrite_at in E by lia. cbn [bind] in E. injection E as E. rewrite app_assoc in E. apply app_inv_tail in E. subst a.
  assert (N : znth 0 (block junk (16 + size + 1)) (16 + i) = junk (16 + i)).
  { unfold block, znth. set (f := fun k : nat => junk (Z.of_nat k)). rewrite nth_indep with (d' := f 0%nat) by (rewrite map_length, seq_length; lia).
    rewrite map_nth. unfold f. rewrite seq_nth by lia. f_equal. lia. }
  rewrite EB in N. rewrite <- N. rewrite <- app_assoc. rewrite znth_app2 by lia. rewrite znth_app1 by lia. f_equal. lia.
Qed.
