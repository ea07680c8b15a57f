(** Proofs about stringptrlist and kvlist. *)
From Verif Require Import Base Bits Cstr M_stringptr M_spl S_stringptr D_stringptr P_stringptr.

Lemma s8_inj a b : byte a -> byte b -> s8 a = s8 b -> a = b.
Proof. unfold byte, s8. intros. lia. Qed.
Lemma join_cons sep p ps : ps <> [] -> join sep (p :: ps) = p ++ sep ++ join sep ps.
Proof. destruct ps; [congruence|reflexivity]. Qed.
Lemma zlen_join sep ps : ps <> [] -> zlen (join sep ps) = zlen (concat ps) + (zlen ps - 1) * zlen sep.
Proof.
  induction ps as [|p ps IH]; [congruence|]. intros _. destruct ps as [|p2 ps].
  - cbn [join concat]. rewrite app_nil_r. change (zlen [p]) with 1. lia.
  - rewrite join_cons by congruence. cbn [concat] in *. revert IH. zl. intros IH. rewrite IH by congruence. lia.
Qed.
Lemma zlen_join_eq s1 s2 ps : zlen s1 = zlen s2 -> zlen (join s1 ps) = zlen (join s2 ps).
Proof. intros H. destruct ps; [reflexivity|]. rewrite !zlen_join by congruence. lia. Qed.
Lemma places_len off gap ps : zlen (places off gap ps) = zlen ps.
Proof. revert off. induction ps as [|p ps IH]; intros off; cbn [places]; [reflexivity|]. zl. now rewrite IH. Qed.
Lemma put0_ok s p x q i : sb s = p ++ x :: q -> so s + i = zlen p -> put0 s i = Ret (mkSp (p ++ 0 :: q) (so s) (sz s)).
Proof. intros E L. unfold put0. rewrite E, zwrite_at by auto. reflexivity. Qed.

(** ---------- splitc ---------- *)
Lemma splitc_loop_ok d : byte d -> forall rest fuel buf pre dn cur z post acc,
  bytes rest -> Forall (fun c => c <> d) cur -> sb buf = pre ++ dn ++ cur ++ rest ++ z :: post -> zlen (sb buf) < 2 ^ 63 ->
  so buf = zlen pre -> sz buf = zlen (dn ++ cur ++ rest) -> (S (length rest) < fuel)%nat ->
  exists ps, ps <> [] /\ join [d] ps = cur ++ rest /\ Forall (Forall (fun c => c <> d)) ps /\
    splitc_loop fuel buf (s8 d) (zlen dn + zlen cur) (zlen dn) acc =
      Ret (rev acc ++ places (zlen pre + zlen dn) 1 ps, mkSp (pre ++ dn ++ join [0] ps ++ 0 :: post) (zlen pre) (sz buf)).
Proof.
  intros Bd. induction rest as [|c rest IH]; intros fuel buf pre dn cur z post acc Br Fc E L Ho Hs Hf;
    (destruct fuel as [|fuel]; [lia|]); cbn [splitc_loop]; pose proof L as L'; rewrite E in L'; revert L' Hs; zl; intros L' Hs; zpos.
  - replace (_ <=? _) with true by lia. replace (_ =? _) with true by lia. cbn [bind].
    rewrite (put0_ok buf (pre ++ dn ++ cur) z post) by (rewrite ?E, <- ?app_assoc; auto; zl; lia). cbn [bind].
    destruct fuel as [|fuel]; [cbn in Hf; lia|]. cbn [splitc_loop sz]. rewrite !u64_id by lia.
    replace (_ <=? _) with false by lia.
    exists [cur]. split; [congruence|]. cbn [join places rev]. split; [now rewrite app_nil_r|]. split; [auto|].
    rewrite Ho, <- !app_assoc. do 5 f_equal. rewrite ?u64_id by lia. lia.
  - apply bytes_cons in Br as [Bc Br]. replace (_ <=? _) with true by lia. replace (_ =? sz buf) with false by lia.
    assert (R : zread (sb buf) (so buf + (zlen dn + zlen cur)) = Ret c).
    { rewrite E. replace (pre ++ dn ++ cur ++ (c :: rest) ++ z :: post) with ((pre ++ dn ++ cur) ++ c :: rest ++ z :: post) by (now rewrite <- !app_assoc).
      apply zread_at. zl. lia. }
    rewrite R. cbn [bind]. destruct (s8 c =? s8 d) eqn:EQ.
    + assert (c = d) by (apply s8_inj; auto; lia). subst c.
      rewrite (put0_ok buf (pre ++ dn ++ cur) d (rest ++ z :: post)) by (rewrite ?E, <- ?app_assoc; auto; zl; lia). cbn [bind].
      rewrite !u64_id by lia.
      destruct (IH fuel (mkSp ((pre ++ dn ++ cur) ++ 0 :: rest ++ z :: post) (so buf) (sz buf)) pre (dn ++ cur ++ [0]) [] z post
        ((so buf + zlen dn, zlen dn + zlen cur - zlen dn) :: acc)) as (ps & N & J & F & R2); cbn [sb so sz]; auto.
      * rewrite <- !app_assoc. reflexivity.
      * zl. lia.
      * zl. lia.
      * cbn [length] in Hf. lia.
      * exists (cur :: ps). split; [congruence|]. rewrite join_cons by auto. rewrite J. split; [reflexivity|]. split; [auto|].
        replace (zlen dn + zlen cur + 1) with (zlen (dn ++ cur ++ [0]) + zlen (@nil Z)) at 1 by (zl; lia).
        replace (zlen dn + zlen cur + 1) with (zlen (dn ++ cur ++ [0])) by (zl; lia).
        cbn [sz] in R2. rewrite R2. cbn [rev places]. rewrite join_cons by auto. rewrite <- !app_assoc. rewrite Ho. cbn [app].
        do 3 f_equal. f_equal; [f_equal; lia|]. f_equal. zl. lia.
    + rewrite !u64_id by lia.
      destruct (IH fuel buf pre dn (cur ++ [c]) z post acc) as (ps & N & J & F & R2); auto.
      * apply Forall_app. split; auto. constructor; auto. intros ->. lia.
      * rewrite E. now rewrite <- !app_assoc.
      * zl. lia.
      * cbn [length] in Hf. lia.
      * exists ps. rewrite <- app_assoc in J. split; auto. split; auto. split; auto.
        replace (zlen dn + zlen cur + 1) with (zlen dn + zlen (cur ++ [c])) by (zl; lia). exact R2.
Qed.
Lemma splitc_ok buf pre t z post d : holds_in buf pre t (z :: post) -> bytes t -> byte d ->
  exists ps, ps <> [] /\ join [d] ps = t /\ Forall (Forall (fun c => c <> d)) ps /\
    stringptr_splitc buf (s8 d) = Ret (places (zlen pre) 1 ps, mkSp (pre ++ join [0] ps ++ 0 :: post) (zlen pre) (zlen t)).
Proof.
  intros (E & Ho & Hs & L) Bt Bd. unfold stringptr_splitc.
  destruct (splitc_loop_ok d Bd t (S (S (Z.to_nat (sz buf)))) buf pre [] [] z post [] Bt) as (ps & N & J & F & R); auto.
  - rewrite Hs. unfold zlen. lia.
  - exists ps. split; auto. split; auto. split; auto. cbn [app rev] in R. change (zlen (@nil Z)) with 0 in R. rewrite !Z.add_0_r in R. rewrite R. now rewrite Hs.
Qed.
Lemma count_join d ps : ps <> [] -> Forall (Forall (fun c => c <> d)) ps -> count_occ Z.eq_dec (join [d] ps) d = (length ps - 1)%nat.
Proof.
  assert (C0 : forall p, Forall (fun c => c <> d) p -> count_occ Z.eq_dec p d = 0%nat).
  { intros p F. apply count_occ_not_In. intros I. rewrite Forall_forall in F. now apply (F d). }
  induction ps as [|p ps IH]; [congruence|]. intros _ F. apply Forall_cons_iff in F as [F1 F2]. destruct ps as [|p2 ps].
  - cbn [join length]. now rewrite C0.
  - rewrite join_cons by congruence. rewrite !count_occ_app, IH by (auto; congruence). rewrite C0 by auto. cbn [count_occ].
    destruct (Z.eq_dec d d); [|congruence]. cbn [length]. lia.
Qed.

(** ---------- splits ---------- *)
Lemma splits_loop_ok delim d : holds delim d -> d <> [] -> forall fuel rest buf pre dn cur z post acc,
  (forall i, i < zlen cur -> ~ occurs_at d (cur ++ rest) i) -> sb buf = pre ++ dn ++ cur ++ rest ++ z :: post -> zlen (sb buf) < 2 ^ 63 ->
  so buf = zlen pre -> sz buf = zlen (dn ++ cur ++ rest) -> (S (length rest) < fuel)%nat ->
  exists ps, cut d (cur ++ rest) ps /\
    splits_loop fuel buf delim (zlen dn + zlen cur) (zlen dn) acc =
      Ret (rev acc ++ places (zlen pre + zlen dn) (zlen d) ps, mkSp (pre ++ dn ++ join (0 :: tl d) ps ++ 0 :: post) (zlen pre) (sz buf)).
Proof.
  intros Hd Nd. destruct (holds_size _ _ Hd) as [Sd Bd]. assert (D1 : 1 <= zlen d) by (destruct d; [congruence|zl; zpos; lia]).
  induction fuel as [|fuel IH]; intros rest buf pre dn cur z post acc No E L Ho Hs Hf; [lia|].
  cbn [splits_loop]; pose proof L as L'; rewrite E in L'; revert L'; zl; intros L'; zpos.
  assert (Hs' : sz buf = zlen dn + zlen cur + zlen rest) by (rewrite Hs; zl; lia).
  replace (_ <=? _) with true by lia. destruct rest as [|c rest].
  - revert Hs'. zl. intros Hs'. replace (_ =? _) with true by lia. cbn [bind].
    rewrite (put0_ok buf (pre ++ dn ++ cur) z post) by (rewrite ?E, <- ?app_assoc; auto; zl; lia). cbn [bind].
    destruct fuel as [|fuel]; [cbn in Hf; lia|]. cbn [splits_loop sz]. rewrite !u64_id by lia.
    replace (_ <=? _) with false by lia.
    exists [cur]. rewrite app_nil_r in *. split.
    + constructor. intros [i O]. pose proof (occurs_at_bound _ _ _ O). apply (No i); [lia|auto].
    + cbn [join places rev]. rewrite Ho, <- !app_assoc. do 5 f_equal. rewrite ?u64_id by lia. lia.
  - set (rest' := c :: rest) in *. assert (R1 : 0 < zlen rest') by (unfold rest'; zl; zpos; lia).
    replace (_ =? sz buf) with false by lia.
    assert (Hh : holds buf (dn ++ cur ++ rest')).
    { exists pre, (z :: post). split; [rewrite E; now rewrite <- !app_assoc|]. split; auto. split; [zl; lia|auto]. }
    destruct (here_ok buf delim _ d (zlen dn + zlen cur) Hh Hd) as (r & ER & Hr); [zl; lia|]. rewrite ER. cbn [bind].
    destruct Hr as [[-> O]|[-> O]]; cbn [Z.eqb negb].
    + destruct O as (p & q & EO & Lp). rewrite app_assoc in EO.
      assert (rest' = d ++ q). { apply app_len_inv in EO as [_ EO]; auto. zl. lia. }
      rewrite H in *. clear EO. destruct d as [|d0 d]; [congruence|]. cbn [tl].
      rewrite (put0_ok buf (pre ++ dn ++ cur) d0 (d ++ q ++ z :: post)) by (rewrite ?E, <- ?app_assoc; auto; zl; lia). cbn [bind].
      assert (Lr : zlen rest' = 1 + zlen d + zlen q) by (rewrite H; zl; lia).
      revert D1 Sd; zl; intros D1 Sd. zpos. rewrite !u64_id by lia.
      destruct (IH q (mkSp ((pre ++ dn ++ cur) ++ 0 :: d ++ q ++ z :: post) (so buf) (sz buf)) pre (dn ++ cur ++ 0 :: d) [] z post
        ((so buf + zlen dn, zlen dn + zlen cur - zlen dn) :: acc)) as (ps & C & R2); cbn [sb so sz]; auto.
      * intros i Hi O. apply occurs_at_bound in O. change (zlen (@nil Z)) with 0 in Hi. lia.
      * rewrite <- !app_assoc. reflexivity.
      * zl. lia.
      * zl. lia.
      * clear -Hf. rewrite app_length in Hf. cbn [length] in *. lia.
      * exists (cur :: ps). cbn [app] in C. split; [constructor; auto|].
        assert (NP : ps <> []) by (intros ->; inversion C).
        replace (zlen dn + zlen cur + sz delim) with (zlen (dn ++ cur ++ 0 :: d) + zlen (@nil Z)) at 1 by (zl; lia).
        replace (zlen dn + zlen cur + sz delim) with (zlen (dn ++ cur ++ 0 :: d)) by (zl; lia).
        cbn [sz tl] in R2. rewrite R2. cbn [rev places]. rewrite join_cons by auto. rewrite <- !app_assoc. rewrite Ho. cbn [app].
        rewrite <- ?app_assoc.
        f_equal. f_equal. f_equal. f_equal. { f_equal. lia. } f_equal. zl. lia.
    + rewrite !u64_id by lia.
      destruct (IH rest buf pre dn (cur ++ [c]) z post acc) as (ps & C & R2); auto.
      * intros i Hi O'. rewrite <- app_assoc in O'. cbn [app] in O'. fold rest' in O'. destruct (Z.eq_dec i (zlen cur)) as [->|].
        -- apply O. destruct O' as (p & q & EO & Lp). exists (dn ++ p), q. split; [|zl; lia]. rewrite EO. now rewrite <- !app_assoc.
        -- apply (No i); auto. revert Hi. zl. lia.
      * rewrite E. now rewrite <- !app_assoc.
      * rewrite Hs. unfold rest'. zl. lia.
      * unfold rest' in Hf. cbn [length] in Hf. lia.
      * exists ps. rewrite <- app_assoc in C. split; [exact C|].
        replace (zlen dn + zlen cur + 1) with (zlen dn + zlen (cur ++ [c])) by (zl; lia). exact R2.
Qed.
Lemma splits_ok buf pre t z post delim d fuel : holds_in buf pre t (z :: post) -> holds delim d -> d <> [] -> (S (length t) < fuel)%nat ->
  exists ps, cut d t ps /\ stringptr_splits fuel buf delim =
      Ret (places (zlen pre) (zlen d) ps, mkSp (pre ++ join (0 :: tl d) ps ++ 0 :: post) (zlen pre) (zlen t)).
Proof.
  intros (E & Ho & Hs & L) Hd Nd Hf. unfold stringptr_splits.
  destruct (splits_loop_ok delim d Hd Nd fuel t buf pre [] [] z post []) as (ps & C & R); auto.
  - intros i Hi O. apply occurs_at_bound in O. change (zlen (@nil Z)) with 0 in Hi. lia.
  - exists ps. split; auto. cbn [app rev] in R. change (zlen (@nil Z)) with 0 in R. rewrite !Z.add_0_r in R. rewrite R. now rewrite Hs.
Qed.
Lemma cut_nonempty d t ps : cut d t ps -> ps <> [].
Proof. intros H; inversion H; congruence. Qed.
Lemma cut_join d t ps : cut d t ps -> join d ps = t.
Proof. induction 1; [reflexivity|]. rewrite join_cons by (eapply cut_nonempty; eauto). now rewrite IHcut. Qed.
Lemma cut_unique d t ps : d <> [] -> cut d t ps -> forall ps', cut d t ps' -> ps = ps'.
Proof.
  intros Nd. induction 1 as [t N|p r ps No C IH]; intros ps' C'; inversion C' as [t' N' E|p' r' ps2 No' C2 E].
  - reflexivity.
  - subst t. exfalso. apply N. exists (zlen p'), p', r'. auto.
  - subst. exfalso. apply N'. exists (zlen p), p, r. auto.
  - subst. assert (zlen p = zlen p').
    { destruct (Z.lt_trichotomy (zlen p) (zlen p')) as [X|[X|X]]; auto; exfalso.
      - apply (No' _ X). exists p, r. auto.
      - apply (No _ X). exists p', r'. auto. }
    apply app_len_inv in E as [E1 E]; [|lia]. apply app_len_inv in E as [_ E]; [|auto]. subst. f_equal. now apply IH.
Qed.
Lemma splits_empty_loop delim : sz delim = 0 -> forall fuel buf i ls acc p x q, sb buf = p ++ x :: q -> zlen p = so buf + i -> 0 <= i <= sz buf -> sz buf < 2 ^ 63 ->
  0 <= so delim <= zlen (sb delim) -> splits_loop fuel buf delim i ls acc = Fuel.
Proof.
  intros S0. induction fuel as [|fuel IH]; intros buf i ls acc p x q E Lp Hi Hb Hdl; [reflexivity|].
  cbn [splits_loop]. replace (_ <=? _) with true by lia.
  assert (HIT : (if i =? sz buf then Ret true else let* r := stringptr_here buf i delim in Ret (negb (r =? 0))) = Ret true).
  { destruct (i =? sz buf); [reflexivity|]. unfold stringptr_here. rewrite S0. rewrite u64_id by lia. replace (_ <=? _) with true by lia.
    unfold memcmp0. rewrite zreads_ok by lia. cbn [bind]. rewrite <- Lp. rewrite E.
    rewrite (zreads_at p [] (x :: q)) by reflexivity. cbn [bind]. change (ztake 0 (zdrop (so delim) (sb delim))) with (@nil Z). reflexivity. }
  rewrite HIT. cbn [bind]. rewrite (put0_ok buf p x q) by (auto; lia). cbn [bind]. rewrite S0, Z.add_0_r. rewrite u64_id by lia.
  apply (IH _ _ _ _ p 0 q); cbn [sb so sz]; auto.
Qed.
Lemma splits_empty buf pre t z post delim fuel : holds_in buf pre t (z :: post) -> holds delim [] -> stringptr_splits fuel buf delim = Fuel.
Proof.
  intros (E & Ho & Hs & L) Hd. unfold stringptr_splits. destruct Hd as (p & q & Ed & Hod & Hsd & _). rewrite E in L. revert L. zl. intros L. zpos.
  assert (EX : exists x r, t ++ z :: post = x :: r) by (destruct t; cbn; eauto). destruct EX as (x & r & EX).
  apply (splits_empty_loop delim) with (p := pre) (x := x) (q := r); auto; try lia.
  - now rewrite E, <- EX.
  - rewrite Ed, Hod. zl. zpos. lia.
Qed.

(** ---------- replace ---------- *)
Lemma replace_loop_ok whit wt gap : holds whit wt -> forall ps sp0 sq rp m rq ro w, zlen m = zlen (join wt ps) -> ro + w = zlen rp ->
  0 <= w -> w + zlen m < 2 ^ 64 ->
  replace_loop (places (zlen sp0) (zlen gap) ps) (sp0 ++ join gap ps ++ sq) whit (rp ++ m ++ rq) ro w = Ret (rp ++ join wt ps ++ rq).
Proof.
  intros Hw. destruct (holds_size _ _ Hw) as [Sw Bw].
  induction ps as [|p ps IH]; intros sp0 sq rp m rq ro w Lm Lr W0 W1.
  - cbn [places replace_loop join] in *. apply zlen_0 in Lm. now subst.
  - cbn [places]. cbn [replace_loop].
    assert (EX : exists m1 m2, m = m1 ++ m2 /\ zlen m1 = zlen p /\ zlen m2 = zlen (join wt (p :: ps)) - zlen p).
    { destruct (zsplit (zlen p) m) as (m1 & m2 & -> & L1); [rewrite Lm; destruct ps; [cbn [join]; zpos; lia|rewrite join_cons by congruence; zl; zpos; lia]|].
      exists m1, m2. split; auto. split; auto. revert Lm. zl. lia. }
    destruct EX as (m1 & m2 & -> & L1 & L2). revert W1. zl. intros W1. zpos.
    assert (C1 : (if zlen p =? 0 then Ret (rp ++ (m1 ++ m2) ++ rq, w)
                  else let* res := memcpy (rp ++ (m1 ++ m2) ++ rq) (ro + w) (sp0 ++ join gap (p :: ps) ++ sq) (zlen sp0) (zlen p) in Ret (res, u64 (w + zlen p)))
                 = Ret ((rp ++ p) ++ m2 ++ rq, w + zlen p)).
    { destruct (zlen p =? 0) eqn:E.
      - assert (Q : zlen p = 0) by lia. rewrite Q in *. apply zlen_0 in Q, L1. subst p m1. cbn [app]. rewrite app_nil_r. do 2 f_equal. lia.
      - rewrite u64_id by lia. unfold memcpy.
        assert (EJ : exists r, sp0 ++ join gap (p :: ps) ++ sq = sp0 ++ p ++ r).
        { destruct ps; [exists sq; reflexivity|]. rewrite join_cons by congruence. eexists. rewrite <- !app_assoc. reflexivity. }
        destruct EJ as [r ->]. rewrite zreads_at by reflexivity. cbn [bind]. rewrite <- app_assoc. rewrite zwrites_at by (auto; lia). cbn [bind].
        now rewrite <- !app_assoc. }
    rewrite C1. cbn [bind]. destruct ps as [|p2 ps].
    + cbn [places orb bind replace_loop join] in *. assert (Q : zlen m2 = 0) by lia. apply zlen_0 in Q. subst m2. cbn [app]. now rewrite <- !app_assoc.
    + set (qs := p2 :: ps) in *. assert (NQ : qs <> []) by (unfold qs; congruence). rewrite (join_cons wt p qs) in * by auto. rewrite (join_cons gap p qs) by auto.
      assert (PL : match places (zlen sp0 + zlen p + zlen gap) (zlen gap) qs with [] => true | _ => false end = false) by (unfold qs; reflexivity).
      rewrite PL. cbn [orb]. clear PL. revert L2. zl. intros L2.
      destruct (zsplit (zlen wt) m2) as (m3 & m4 & -> & L3); [zpos; lia|]. revert L2 W1. zl. intros L2 W1. zpos.
      assert (C2 : (if sz whit =? 0 then Ret ((rp ++ p) ++ (m3 ++ m4) ++ rq, w + zlen p)
                    else let* res := memcpy ((rp ++ p) ++ (m3 ++ m4) ++ rq) (ro + (w + zlen p)) (sb whit) (so whit) (sz whit) in Ret (res, u64 (w + zlen p + sz whit)))
                   = Ret ((rp ++ p ++ wt) ++ m4 ++ rq, w + zlen p + zlen wt)).
      { destruct (sz whit =? 0) eqn:E.
        - assert (Q : zlen wt = 0) by lia. rewrite Q in *. apply zlen_0 in Q, L3. subst wt m3. rewrite !app_nil_r. cbn [app]. do 2 f_equal. lia.
        - rewrite u64_id by lia. replace (ro + (w + zlen p)) with (zlen (rp ++ p)) by (zl; lia). rewrite <- (app_assoc m3).
          rewrite (memcpy_at (rp ++ p) m3 (m4 ++ rq) whit wt Hw) by lia. cbn [bind]. rewrite Sw. now rewrite <- !app_assoc. }
      rewrite C2. cbn [bind].
      replace (zlen sp0 + zlen p + zlen gap) with (zlen (sp0 ++ p ++ gap)) by (zl; lia).
      replace (sp0 ++ (p ++ gap ++ join gap qs) ++ sq) with ((sp0 ++ p ++ gap) ++ join gap qs ++ sq) by (now rewrite <- !app_assoc).
      rewrite IH; [now rewrite <- !app_assoc|lia|zl; lia|lia|lia].
Qed.
Lemma cut_count d t ps : cut d t ps -> (zlen ps - 1) * zlen d <= zlen t /\ zlen t = zlen (concat ps) + (zlen ps - 1) * zlen d.
Proof. intros C. rewrite <- (cut_join _ _ _ C). rewrite zlen_join by (eapply cut_nonempty; eauto). zpos. lia. Qed.
Lemma replace_ok fuel junk buf pre t z post what wt whit rt : holds_in buf pre t (z :: post) -> holds what wt -> wt <> [] -> holds whit rt ->
  (S (length t) < fuel)%nat -> (forall ps, cut wt t ps -> zlen (join rt ps) < 2 ^ 64 - 17) ->
  exists ps r, cut wt t ps /\ stringptr_replace fuel (Some junk) buf what whit =
      Ret (Some r, mkSp (pre ++ join (0 :: tl wt) ps ++ 0 :: post) (zlen pre) (zlen t)) /\ new_with r (join rt ps).
Proof.
  intros Hb Hw Nw Hr Hf Big. destruct (splits_ok _ _ _ _ _ _ _ _ Hb Hw Nw Hf) as (ps & C & E).
  destruct (holds_size _ _ Hw) as [Sw Bw]. destruct (holds_size _ _ Hr) as [Sr Br]. specialize (Big _ C).
  assert (NP := cut_nonempty _ _ _ C). unfold stringptr_replace. rewrite E. cbn [bind sb sz]. rewrite places_len, Sw, Sr.
  destruct (cut_count _ _ _ C) as [C1 C2]. pose proof (zlen_join rt ps NP) as LJ.
  assert (P1 : 1 <= zlen ps) by (destruct ps; [congruence|zl; zpos; lia]).
  assert (0 <= (zlen ps - 1) * zlen wt) by (zpos; apply Z.mul_nonneg_nonneg; lia).
  assert (0 <= (zlen ps - 1) * zlen rt) by (zpos; apply Z.mul_nonneg_nonneg; lia).
  assert (T : zlen t < 2 ^ 63). { destruct Hb as (E0 & _ & _ & L). rewrite E0 in L. revert L. zl. zpos. lia. }
  zpos. rewrite (u64_id ((zlen ps - 1) * zlen wt)) by lia. rewrite (u64_id ((zlen ps - 1) * zlen rt)) by lia. rewrite (u64_id (_ - _)) by lia.
  replace (zlen t - (zlen ps - 1) * zlen wt + (zlen ps - 1) * zlen rt) with (zlen (join rt ps)) by lia. rewrite u64_id by lia.
  destruct (new_ok junk (zlen (join rt ps))) as (hd & body & L1 & L2 & EN); [lia|]. rewrite EN. cbn [bind sb so sz].
  replace (zlen wt) with (zlen (0 :: tl wt)) by (destruct wt; [congruence|reflexivity]).
  rewrite (replace_loop_ok whit rt (0 :: tl wt) Hr ps pre (0 :: post) hd body [0] 16 0) by lia. cbn [bind].
  exists ps. eexists. split; auto. split; [reflexivity|]. exists hd. auto.
Qed.

(** ---------- find ---------- *)
Lemma find_from_ok what wt : holds what wt -> forall l ts, Forall2 holds l ts -> forall i, 0 <= i ->
  (exists p q, ts = p ++ wt :: q /\ ~ In wt p /\ spl_find_from i l what = Ret (i + zlen p)) \/ (~ In wt ts /\ spl_find_from i l what = Ret (-1)).
Proof.
  intros Hw. induction 1 as [|s t l ts Hs _ IH]; intros i Hi; [right; auto|].
  cbn [spl_find_from]. rewrite (eq_ok _ _ _ _ Hw Hs). cbn [bind]. destruct (list_eq_dec Z.eq_dec wt t) as [->|NE]; cbn [Z.eqb negb].
  - left. exists [], ts. split; auto. split; [auto|]. change (zlen (@nil (list Z))) with 0. f_equal. lia.
  - destruct (IH (i + 1) ltac:(lia)) as [(p & q & -> & NI & R)|[NI R]].
    + left. exists (t :: p), q. split; auto. split; [intros [X|X]; congruence|]. rewrite R. f_equal. zl. lia.
    + right. split; [intros [X|X]; congruence|auto].
Qed.
Lemma kv_find_ok {V} what wt (l : list (sp * V)) ts : holds what wt -> Forall2 (fun kv t => holds (fst kv) t) l ts ->
  (exists p q k v lp lq, ts = p ++ wt :: q /\ ~ In wt p /\ l = lp ++ (k, v) :: lq /\ zlen lp = zlen p /\ kv_find l what = Ret (1, Some v)) \/
  (~ In wt ts /\ kv_find l what = Ret (0, None)).
Proof.
  intros Hw. induction 1 as [|[k v] t l ts Hs _ IH]; [right; auto|]. cbn [fst] in Hs.
  cbn [kv_find]. rewrite (eq_ok _ _ _ _ Hw Hs). cbn [bind]. destruct (list_eq_dec Z.eq_dec wt t) as [->|NE]; cbn [Z.eqb negb].
  - left. exists [], ts, k, v, [], l. auto.
  - destruct IH as [(p & q & k' & v' & lp & lq & -> & NI & -> & L & R)|[NI R]].
    + left. exists (t :: p), q, k', v', ((k, v) :: lp), lq. split; auto. split; [intros [X|X]; congruence|]. split; auto. split; auto. zl. lia.
    + right. split; [intros [X|X]; congruence|auto].
Qed.

(** ---------- tostring ---------- *)
Lemma put_bytes_ok : forall eol p m q, zlen m = zlen eol -> put_bytes (p ++ m ++ q) (zlen p) eol = Ret (p ++ eol ++ q, zlen p + zlen eol).
Proof.
  induction eol as [|c eol IH]; intros p m q L; cbn [put_bytes].
  - apply zlen_0 in L. subst. change (zlen (@nil Z)) with 0. do 2 f_equal. lia.
  - destruct m as [|x m]; [exfalso; revert L; zl; zpos; lia|]. cbn [app]. rewrite zwrite_at by auto. cbn [bind].
    specialize (IH (p ++ [c]) m q). replace (zlen p + 1) with (zlen (p ++ [c])) by (zl; lia). replace (p ++ c :: m ++ q) with ((p ++ [c]) ++ m ++ q) by (now rewrite <- app_assoc).
    rewrite IH by (revert L; zl; lia). rewrite <- app_assoc. do 2 f_equal. zl. lia.
Qed.
Lemma tostring_req_ok eol : zlen eol < 2 ^ 62 -> forall l ts, Forall2 holds l ts -> forall n, 0 <= n -> n + zlen (lines eol ts) < 2 ^ 64 ->
  fold_left (fun r s => u64 (r + u64 (sz s + zlen eol))) l n = n + zlen (lines eol ts).
Proof.
  intros He. unfold lines. induction 1 as [|s t l ts Hs _ IH]; intros n Hn L; cbn [fold_left map concat] in *; [change (zlen (@nil Z)) with 0; lia|].
  destruct (holds_size _ _ Hs) as [S B]. revert L. zl. intros L. zpos. rewrite S, (u64_id (_ + zlen eol)), u64_id by lia. rewrite IH by lia. lia.
Qed.
Lemma tostring_loop_ok eol : forall l ts, Forall2 holds l ts -> forall p m q, zlen m = zlen (lines eol ts) ->
  tostring_loop eol l (p ++ m ++ q) (zlen p) = Ret (p ++ lines eol ts ++ q).
Proof.
  unfold lines. induction 1 as [|s t l ts Hs _ IH]; intros p m q L; cbn [tostring_loop map concat] in *; [apply zlen_0 in L; now subst|].
  destruct (holds_size _ _ Hs) as [S B]. revert L. zl. intros L. zpos.
  destruct (zsplit (zlen t) m) as (m1 & m2 & -> & L1); [lia|]. revert L. zl. intros L.
  destruct (zsplit (zlen eol) m2) as (m3 & m4 & -> & L3); [lia|]. revert L. zl. intros L.
  assert (C : (if sz s =? 0 then Ret (p ++ (m1 ++ m3 ++ m4) ++ q) else memcpy (p ++ (m1 ++ m3 ++ m4) ++ q) (zlen p) (sb s) (so s) (sz s))
              = Ret ((p ++ t) ++ m3 ++ (m4 ++ q))).
  { destruct (sz s =? 0) eqn:E.
    - assert (Q : zlen t = 0) by lia. rewrite Q in *. apply zlen_0 in Q, L1. subst t m1. rewrite app_nil_r. cbn [app]. now rewrite <- !app_assoc.
    - rewrite <- !app_assoc. rewrite (memcpy_at p m1 (m3 ++ m4 ++ q) s t Hs) by auto. reflexivity. }
  rewrite C. cbn [bind]. replace (zlen p + sz s) with (zlen (p ++ t)) by (zl; lia). rewrite put_bytes_ok by auto. cbn [bind].
  replace (zlen (p ++ t) + zlen eol) with (zlen ((p ++ t) ++ eol)) by (zl; lia). rewrite app_assoc. rewrite IH by lia. now rewrite <- !app_assoc.
Qed.
Lemma tostring_ok eol junk l ts : zlen eol < 2 ^ 62 -> Forall2 holds l ts -> zlen (lines eol ts) < 2 ^ 64 - 17 ->
  exists r, tostring_eol eol (Some junk) l = Ret (Some r) /\ new_with r (lines eol ts).
Proof.
  intros He F L. unfold tostring_eol, tostring_req. zpos. rewrite (tostring_req_ok eol He l ts F 0) by lia. rewrite Z.add_0_l.
  destruct (new_ok junk (zlen (lines eol ts))) as (hd & body & L1 & L2 & E); [lia|]. rewrite E. cbn [bind sb so sz].
  pose proof (tostring_loop_ok eol l ts F hd body [0] L2) as T. rewrite L1 in T. rewrite T. cbn [bind].
  eexists. split; [reflexivity|]. exists hd. auto.
Qed.
