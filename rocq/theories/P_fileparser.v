(** Proofs about fileparser. *)
From Verif Require Import Base Bits M_fileparser S_fileparser D_fileparser.

Lemma find_lf_some : forall l p q r n, no_lf l -> (length l < n)%nat -> find_lf n (p ++ l ++ 10 :: q ++ r) (zlen p) = Ret (Some (zlen p + zlen l)).
Proof.
  induction l as [|c l IH]; intros p q r n N L; (destruct n as [|n]; [cbn in L; lia|]); cbn [find_lf app].
  - rewrite zread_at by auto. cbn [bind Z.eqb Pos.eqb]. change (zlen (@nil Z)) with 0. do 2 f_equal. lia.
  - rewrite zread_at by auto. cbn [bind]. destruct (c =? 10) eqn:E; [exfalso; apply N; left; lia|].
    replace (zlen p + 1) with (zlen (p ++ [c])) by (zl; lia). replace (p ++ c :: l ++ 10 :: q ++ r) with ((p ++ [c]) ++ l ++ 10 :: q ++ r) by (now rewrite <- app_assoc).
    rewrite IH; [do 2 f_equal; zl; lia|intros I; apply N; now right|cbn in L; lia].
Qed.
Lemma find_lf_none : forall l p r, no_lf l -> find_lf (length l) (p ++ l ++ r) (zlen p) = Ret None.
Proof.
  induction l as [|c l IH]; intros p r N; [reflexivity|]. cbn [length find_lf app].
  rewrite zread_at by auto. cbn [bind]. destruct (c =? 10) eqn:E; [exfalso; apply N; left; lia|].
  replace (zlen p + 1) with (zlen (p ++ [c])) by (zl; lia). replace (p ++ c :: l ++ r) with ((p ++ [c]) ++ l ++ r) by (now rewrite <- app_assoc).
  apply IH. intros I. apply N. now right.
Qed.
(** the parser stands before the rest r of its file *)
Definition at_rest (p : fp) (r : list Z) : Prop :=
  ffd p <> 0 /\ zlen (fcont p) < 2 ^ 63 /\ (exists a, fcont p = a ++ r /\ foff p = zlen a) /\ (r <> [] -> fpos p = foff p).
Lemma at_rest_off p r a : fcont p = a ++ r -> foff p = zlen a -> zdrop (foff p) (fcont p) = r.
Proof. intros -> ->. apply zdrop_app_exact. Qed.

(** one call: line with LF that fits *)
Lemma readline_lf p l r b g n : at_rest p (l ++ 10 :: r) -> no_lf l -> zlen b = n -> zlen l < n ->
  exists p' b', readline_userbuf None None p (b ++ g) n = Ret (0, p', b' ++ g) /\ zlen b' = n /\ flen p' = zlen l /\ ztake (zlen l + 1) b' = l ++ [0] /\
    at_rest p' r /\ fpos p' = fpos p + zlen l + 1 /\ foff p' = fpos p' /\ fcont p' = fcont p /\ ffd p' = ffd p.
Proof.
  intros (Hfd & Hc & (a & Ea & Eo) & Hp) Nl Lb Ll. specialize (Hp ltac:(destruct l; discriminate)).
  unfold readline_userbuf, sys_read. replace (ffd p =? 0) with false by lia. rewrite (at_rest_off _ _ _ Ea Eo).
  pose proof Hc as Hc'. rewrite Ea in Hc'. revert Hc'. zl. intros Hc'. zpos.
  set (d := ztake n (l ++ 10 :: r)).
  assert (D : exists q, d = l ++ 10 :: q).
  { unfold d. rewrite ztake_app2 by lia. exists (ztake (n - zlen l - 1) r). f_equal. change (10 :: r) with ([10] ++ r). rewrite ztake_app2 by (change (zlen [10]) with 1; lia).
    change (zlen [10]) with 1. reflexivity. }
  destruct D as (q & D). assert (Ld : zlen d <= n). { unfold d. rewrite zlen_ztake_min; lia. }
  rewrite D in *. clearbody d. revert Ld. zl. intros Ld. zpos.
  destruct (zsplit (zlen (l ++ 10 :: q)) b) as (b1 & b2 & -> & L1); [zl; lia|].
  rewrite <- app_assoc. pose proof (zwrites_at [] b1 (b2 ++ g) (l ++ 10 :: q) 0 eq_refl L1) as W. cbn [app] in W. rewrite W. cbn [bind].
  replace (_ =? 0) with false by (zl; lia). cbn [fpos flen ffd fcont foff set_off].
  pose proof (find_lf_some l [] q (b2 ++ g) (Z.to_nat (zlen l + (1 + zlen q))) Nl) as F. cbn [app] in F. change (zlen (@nil Z)) with 0 in F.
  rewrite <- app_assoc. cbn [app]. rewrite F by (unfold zlen; lia). cbn [bind]. rewrite Z.add_0_l.
  rewrite zwrite_at by auto. cbn [bind seek_ret]. rewrite (u64_id (zlen l + 1)), u64_id by lia.
  eexists _, (l ++ 0 :: q ++ b2).
  split; [rewrite <- !app_assoc; cbn [app]; rewrite <- !app_assoc; reflexivity|]. cbn [set_off fpos flen ffd fcont foff]. split; [revert Lb L1; zl; lia|]. split; auto.
  split. { change (l ++ 0 :: q ++ b2) with (l ++ [0] ++ q ++ b2). rewrite app_assoc. replace (zlen l + 1) with (zlen (l ++ [0])) by (zl; lia). apply ztake_app_exact. }
  split; [|auto with zarith]. split; auto. split; auto. split; [|reflexivity]. exists (a ++ l ++ [10]). cbn. split; [rewrite Ea; now rewrite <- !app_assoc|]. zl. lia.
Qed.

Lemma readline_last p l b g n : at_rest p l -> l <> [] -> no_lf l -> zlen b = n -> zlen l < n ->
  exists p' b', readline_userbuf None None p (b ++ g) n = Ret (0, p', b' ++ g) /\ zlen b' = n /\ flen p' = zlen l /\ ztake (zlen l + 1) b' = l ++ [0] /\
    at_rest p' [] /\ fcont p' = fcont p /\ ffd p' = ffd p.
Proof.
  intros (Hfd & Hc & (a & Ea & Eo) & Hp) Ne Nl Lb Ll. specialize (Hp Ne).
  unfold readline_userbuf, sys_read. replace (ffd p =? 0) with false by lia. rewrite (at_rest_off _ _ _ Ea Eo).
  pose proof Hc as Hc'. rewrite Ea in Hc'. revert Hc'. zl. intros Hc'. zpos.
  assert (L0 : 0 < zlen l) by (destruct l; [congruence|zl; zpos; lia]).
  rewrite ztake_all by lia.
  destruct (zsplit (zlen l) b) as (b1 & b2 & -> & L1); [lia|]. revert Lb. zl. intros Lb.
  destruct b2 as [|x b2]; [exfalso; revert Lb; zl; lia|].
  rewrite <- app_assoc. pose proof (zwrites_at [] b1 ((x :: b2) ++ g) l 0 eq_refl L1) as W. cbn [app] in W. cbn [app]. rewrite W. cbn [bind].
  replace (zlen l =? 0) with false by lia. cbn [fpos flen ffd fcont foff set_off].
  pose proof (find_lf_none l [] (x :: b2 ++ g) Nl) as F. cbn [app] in F. change (zlen (@nil Z)) with 0 in F.
  replace (Z.to_nat (zlen l)) with (length l) by (unfold zlen; lia). rewrite F. cbn [bind]. replace (zlen l <? n) with true by lia.
  rewrite zwrite_at by auto. cbn [bind]. rewrite (u64_id (zlen l + 1)), u64_id by lia.
  eexists _, (l ++ 0 :: b2). split; [rewrite <- app_assoc; reflexivity|]. cbn [fpos flen ffd fcont foff]. split; [revert Lb; zl; lia|]. split; auto.
  split. { change (l ++ 0 :: b2) with (l ++ [0] ++ b2). rewrite app_assoc. replace (zlen l + 1) with (zlen (l ++ [0])) by (zl; lia). apply ztake_app_exact. }
  split; auto. split; auto. split; auto. split; [|congruence]. exists (a ++ l). rewrite app_nil_r. cbn. split; [auto|]. zl. lia.
Qed.
Lemma readline_eof p b n : at_rest p [] -> 0 <= n -> readline_userbuf None None p b n = Ret (-2, p, b).
Proof.
  intros (Hfd & Hc & (a & Ea & Eo) & Hp) Hn. unfold readline_userbuf, sys_read. replace (ffd p =? 0) with false by lia. rewrite (at_rest_off _ _ _ Ea Eo).
  replace (ztake n (@nil Z)) with (@nil Z) by (unfold ztake; now rewrite firstn_nil).
  pose proof (zwrites_at [] [] b [] 0 eq_refl eq_refl) as W. cbn [app] in W. rewrite W. cbn [bind]. change (zlen (@nil Z)) with 0. cbn [Z.eqb].
  destruct p. unfold set_off. cbn. now rewrite Z.add_0_r.
Qed.
Lemma readline_long p c r b g n : at_rest p (c ++ r) -> no_lf c -> zlen c = n -> zlen b = n -> 1 <= n ->
  readline_userbuf None None p (b ++ g) n = Ret (-3, mkFp (fpos p) n (ffd p) (fcont p) (fpos p), c ++ g).
Proof.
  intros (Hfd & Hc & (a & Ea & Eo) & Hp) Nl Lc Lb Hn.
  unfold readline_userbuf, sys_read. replace (ffd p =? 0) with false by lia. rewrite (at_rest_off _ _ _ Ea Eo).
  replace (ztake n (c ++ r)) with c by (rewrite <- Lc; symmetry; apply ztake_app_exact).
  pose proof (zwrites_at [] b g c 0 eq_refl ltac:(lia)) as W. cbn [app] in W. rewrite W. cbn [bind].
  replace (zlen c =? 0) with false by lia. cbn [fpos flen ffd fcont foff set_off].
  pose proof (find_lf_none c [] g Nl) as F. cbn [app] in F. change (zlen (@nil Z)) with 0 in F.
  replace (Z.to_nat (zlen c)) with (length c) by (unfold zlen; lia). rewrite F. cbn [bind]. replace (zlen c <? n) with false by lia.
  cbn [seek_ret set_off fpos flen ffd fcont foff]. now rewrite Lc.
Qed.

Lemma lf_split data : In 10 data -> exists l q, data = l ++ 10 :: q /\ no_lf l.
Proof.
  induction data as [|c data IH]; intros I; [destruct I|]. destruct (Z.eq_dec c 10) as [->|N]; [exists [], data; split; [reflexivity|intros []]|].
  destruct IH as (l & q & -> & Nl); [destruct I; [congruence|auto]|]. exists (c :: l), q. split; [reflexivity|]. intros [I'|I']; [congruence|auto].
Qed.
(** lseek fails *)
Lemma readline_seek_error e p buf n r p' buf' : 0 <= n -> readline_userbuf None None p buf n = Ret (r, p', buf') ->
  let data := ztake n (zdrop (foff p) (fcont p)) in
  (ffd p <> 0 /\ data <> [] /\ (In 10 data \/ zlen data = n) ->
     readline_userbuf None (Some e) p buf n = Ret (e, mkFp (fpos p') (flen p') (ffd p') (fcont p') (foff p + zlen data), buf')) /\
  (ffd p = 0 \/ data = [] \/ (~ In 10 data /\ zlen data <> n) -> readline_userbuf None (Some e) p buf n = Ret (r, p', buf')).
Proof.
  intros Hn E data. assert (Ld : zlen data <= n) by (unfold data; rewrite zlen_ztake_min; lia). revert E. unfold readline_userbuf, sys_read. fold data.
  destruct (ffd p =? 0) eqn:Fd; [intros E; split; [intros; lia|auto]|]. unfold zwrites. destruct (_ && _) eqn:W; [|discriminate]. cbn [bind fpos flen ffd fcont foff set_off].
  change (ztake 0 buf) with (@nil Z). cbn [app].
  destruct data as [|c0 d0] eqn:Ed; [cbn; intros E; split; [intros (_ & N & _); congruence|auto]|]. rewrite <- Ed in *. replace (zlen data =? 0) with false by (rewrite Ed; zl; pose proof (zlen_nonneg d0); lia).
  destruct (in_dec Z.eq_dec 10 data) as [I|I].
  - destruct (lf_split data I) as (l & q & El & Nl).
    assert (F : find_lf (Z.to_nat (zlen data)) (data ++ zdrop (0 + zlen data) buf) 0 = Ret (Some (zlen l))).
    { pose proof (find_lf_some l [] q (zdrop (0 + zlen data) buf) (Z.to_nat (zlen data)) Nl) as F. cbn [app] in F. change (zlen (@nil Z)) with 0 in F. rewrite Z.add_0_l in F.
      replace (data ++ zdrop (0 + zlen data) buf) with (l ++ 10 :: q ++ zdrop (0 + zlen data) buf) by (rewrite El at 2; now rewrite <- app_assoc). apply F. rewrite El. unfold zlen. rewrite app_length. cbn [length]. lia. }
    rewrite F. cbn [bind]. destruct (zwrite (data ++ zdrop (0 + zlen data) buf) (zlen l) 0) as [b1| |]; cbn [bind]; [|discriminate..]. cbn [seek_ret set_off fpos flen ffd fcont foff].
    intros E. injection E as <- <- <-. cbn [fpos flen ffd fcont foff]. split; [reflexivity|]. intros [H|[H|[H _]]]; [lia|rewrite H in I; destruct I|contradiction].
  - pose proof (find_lf_none data [] (zdrop (0 + zlen data) buf) I) as F. cbn [app] in F. change (zlen (@nil Z)) with 0 in F.
    replace (Z.to_nat (zlen data)) with (length data) by (unfold zlen; lia). rewrite F. cbn [bind]. destruct (zlen data <? n) eqn:L.
    + destruct (zwrite (data ++ zdrop (0 + zlen data) buf) (zlen data) 0) as [b1| |]; cbn [bind]; [|discriminate..]. intros E. split; [intros (_ & _ & [H|H]); [contradiction|lia]|]. intros _. exact E.
    + cbn [seek_ret set_off fpos flen ffd fcont foff]. intros E. injection E as <- <- <-. cbn [fpos flen ffd fcont foff]. split; [reflexivity|]. intros [H|[H|[_ H]]]; [lia|congruence|lia].
Qed.

(** k calls *)
Lemma calls_ok : forall k p r ls b g n, at_rest p r -> file_lines r ls -> Forall (fun l => zlen l < n) ls -> zlen b = n -> 0 <= n ->
  exists b', zlen b' = n /\ calls k p (b ++ g) n = Ret (firstn k (map (fun l => Line (l ++ [0])) ls ++ repeat (Code (-2)) k), b' ++ g).
Proof.
  induction k as [|k IH]; intros p r ls b g n Hr Hl F Lb Hn; [exists b; auto|]. cbn [calls].
  assert (RD : forall p' b' l, zlen b' = n -> flen p' = zlen l -> zlen l < n -> ztake (zlen l + 1) b' = l ++ [0] -> zreads (b' ++ g) 0 (flen p' + 1) = Ret (l ++ [0])).
  { intros p' b' l L1 L2 L3 T. rewrite L2. pose proof (zsplit (zlen l + 1) b') as X. zpos. destruct X as (x & y & -> & Lx); [lia|].
    rewrite <- Lx in T. rewrite ztake_app_exact in T. subst x. rewrite <- app_assoc. now apply (zreads_at [] (l ++ [0])). }
  inversion Hl as [E1 E2|l Ne Nl E1 E2|l r' ls' Nl Hl' E1 E2]; subst.
  - rewrite (readline_eof p _ _ Hr Hn). cbn [bind Z.eqb]. destruct (IH p [] [] b g _ Hr Hl F eq_refl Hn) as (b' & L' & E). rewrite E. cbn [bind].
    exists b'. split; [auto|]. cbn [map app repeat firstn]. reflexivity.
  - apply Forall_inv in F. destruct (readline_last p r b g _ Hr Ne Nl eq_refl F) as (p' & b1 & E & L1 & FL & T & R' & _). rewrite E. cbn [bind Z.eqb].
    rewrite (RD p' b1 r) by auto. cbn [bind].
    destruct (IH p' [] [] b1 g _ R' FLnil (Forall_nil _) L1 Hn) as (b' & L' & E'). rewrite E'. cbn [bind].
    exists b'. split; [auto|]. cbn [map app repeat firstn]. do 3 f_equal.
    rewrite repeat_cons, firstn_app, repeat_length, Nat.sub_diag, app_nil_r. reflexivity.
  - apply Forall_cons_iff in F as [F1 F2]. destruct (readline_lf p l r' b g _ Hr Nl eq_refl F1) as (p' & b1 & E & L1 & FL & T & R' & _). rewrite E. cbn [bind Z.eqb].
    rewrite (RD p' b1 l) by auto. cbn [bind].
    destruct (IH p' r' ls' b1 g _ R' Hl' F2 L1 Hn) as (b' & L' & E'). rewrite E'. cbn [bind].
    exists b'. split; [auto|]. cbn [map app repeat firstn]. do 3 f_equal.
    rewrite repeat_cons, app_assoc, (firstn_app k (_ ++ repeat _ _)).
    replace (k - _)%nat with 0%nat by (rewrite app_length, repeat_length; lia).
    cbn [firstn]. now rewrite app_nil_r.
Qed.

(** next line length *)
Lemma step_rest p c r : at_rest p (c ++ r) -> c <> [] -> zlen c = 1024 ->
  at_rest (mkFp (u64 (fpos p + 1024)) 1024 (ffd p) (fcont p) (u64 (fpos p + 1024))) r.
Proof.
  intros (Hfd & Hc & (a & Ea & Eo) & Hp) Nc Lc. specialize (Hp ltac:(destruct c; [congruence|discriminate])).
  pose proof Hc as Hc'. rewrite Ea in Hc'. revert Hc'. zl. intros Hc'. zpos. rewrite u64_id by lia.
  split; auto. split; auto. split; [|reflexivity]. exists (a ++ c). cbn. split; [rewrite Ea; now rewrite app_assoc|]. zl. lia.
Qed.
Lemma no_lf_app a b : no_lf (a ++ b) -> no_lf a /\ no_lf b.
Proof. unfold no_lf. rewrite in_app_iff. tauto. Qed.
Lemma nextlen_lf : forall fuel l r p b res, at_rest p (l ++ 10 :: r) -> no_lf l -> zlen b = 1024 -> (Z.to_nat (zlen l) < fuel)%nat -> 0 <= res -> res + zlen l < 2 ^ 63 ->
  exists p' b', nextlen_loop fuel p b res = Ret (0, res + zlen l - flen p', p', b') /\ 0 <= flen p' <= zlen l /\ zlen b' = 1024 /\ ffd p' = ffd p /\ fcont p' = fcont p.
Proof.
  induction fuel as [|fuel IH]; intros l r p b res Hr Nl Lb Hf R0 R1; [lia|]. cbn [nextlen_loop]. unfold readline.
  destruct (Z_lt_le_dec (zlen l) 1024) as [Q|Q].
  - destruct (readline_lf p l r b [] 1024 Hr Nl Lb Q) as (p' & b' & E & L1 & FL & T & R' & _ & _ & FC & FD). rewrite !app_nil_r in E. rewrite E. cbn [bind Z.eqb].
    exists p', b'. split; [do 4 f_equal; lia|]. split; [zpos; lia|]. auto.
  - destruct (zsplit 1024 l) as (c & l' & -> & Lc); [lia|]. apply no_lf_app in Nl as [N1 N2]. rewrite <- app_assoc in Hr.
    assert (Nc : c <> []) by (intros ->; discriminate Lc).
    pose proof (readline_long p c (l' ++ 10 :: r) b [] 1024 Hr N1 Lc Lb ltac:(lia)) as E. rewrite !app_nil_r in E. rewrite E. cbn [bind].
    change (-3 =? -3) with true. cbn iota. cbn [fpos flen ffd fcont foff].
    revert R1 Hf Q. zl. intros R1 Hf Q. rewrite (u64_id (res + 1024)) by (zpos; lia).
    destruct (IH l' r _ c (res + 1024) (step_rest _ _ _ Hr Nc Lc) N2) as (p' & b' & E' & H1 & H2 & H3 & H4); [lia|lia|lia|zpos; lia|].
    exists p', b'. rewrite E'. cbn in H3, H4. split; [do 4 f_equal; lia|]. split; [lia|]. auto.
Qed.
Lemma nextlen_last : forall fuel l p b res, at_rest p l -> no_lf l -> zlen b = 1024 -> (Z.to_nat (zlen l) < fuel)%nat -> 0 <= res -> res + zlen l < 2 ^ 63 ->
  exists p' b', zlen b' = 1024 /\ ffd p' = ffd p /\ fcont p' = fcont p /\
   ((zlen l) mod 1024 <> 0 /\ nextlen_loop fuel p b res = Ret (0, res + zlen l - flen p', p', b') /\ 0 <= flen p' <= zlen l
    \/ (zlen l) mod 1024 = 0 /\ nextlen_loop fuel p b res = Ret (-2, res + zlen l, p', b') /\ fpos p' = fpos p + zlen l).
Proof.
  induction fuel as [|fuel IH]; intros l p b res Hr Nl Lb Hf R0 R1; [lia|]. cbn [nextlen_loop]. unfold readline.
  destruct (Z_lt_le_dec (zlen l) 1024) as [Q|Q].
  - destruct (list_eq_dec Z.eq_dec l []) as [->|Ne].
    + rewrite (readline_eof p b 1024 Hr) by lia. cbn [bind]. change (-2 =? -3) with false. cbn iota.
      exists p, b. split; auto. split; auto. split; auto. right. change (zlen (@nil Z)) with 0. rewrite Z.add_0_r. split; auto. split; auto. lia.
    + assert (0 < zlen l) by (destruct l; [congruence|zl; zpos; lia]).
      destruct (readline_last p l b [] 1024 Hr Ne Nl Lb Q) as (p' & b' & E & L1 & FL & T & R' & FC & FD). rewrite !app_nil_r in E. rewrite E. cbn [bind Z.eqb].
      exists p', b'. split; auto. split; auto. split; auto. left. rewrite Z.mod_small by lia. split; [lia|]. split; [do 4 f_equal; lia|]. lia.
  - destruct (zsplit 1024 l) as (c & l' & -> & Lc); [lia|]. apply no_lf_app in Nl as [N1 N2].
    assert (Nc : c <> []) by (intros ->; discriminate Lc).
    pose proof (readline_long p c l' b [] 1024 Hr N1 Lc Lb ltac:(lia)) as E. rewrite !app_nil_r in E. rewrite E. cbn [bind].
    change (-3 =? -3) with true. cbn iota. cbn [fpos flen ffd fcont foff].
    revert R1 Hf Q. zl. intros R1 Hf Q. rewrite (u64_id (res + 1024)) by (zpos; lia).
    destruct (IH l' _ c (res + 1024) (step_rest _ _ _ Hr Nc Lc) N2) as (p' & b' & H2 & H3 & H4 & H5); [lia|lia|lia|zpos; lia|].
    exists p', b'. cbn in H3, H4. split; auto. split; auto. split; auto. rewrite Lc.
    replace (1024 + zlen l') with (zlen l' + 1 * 1024) by lia. rewrite Z.mod_add by lia.
    destruct H5 as [(M & E' & B)|(M & E' & B)]; [left|right]; (split; [exact M|]); rewrite E'.
    + split; [do 4 f_equal; lia|lia].
    + split; [do 4 f_equal; lia|]. destruct Hr as (Hfd & Hcc & (a & Ea & Eo) & Hp). specialize (Hp ltac:(destruct c; [congruence|discriminate])).
      rewrite Ea in Hcc. revert Hcc. zl. intros Hcc. zpos. cbn [fpos] in B. rewrite u64_id in B by lia.
      rewrite B. lia.
Qed.
Lemma getnext_ok fuel p b r l lf : at_rest p r -> next_line r l lf -> zlen b = 1024 -> (Z.to_nat (zlen l) < fuel)%nat ->
  (lf = true \/ (zlen l) mod 1024 <> 0) ->
  exists p' b', getnextlinelength fuel p b = Ret (zlen l, p', b') /\ fpos p' = fpos p /\ foff p' = foff p /\ at_rest p' r /\ zlen b' = 1024.
Proof.
  intros Hr [Nl Hn] Lb Hf Hc. unfold getnextlinelength.
  assert (NE : r <> []) by (destruct lf; [destruct Hn as [r' ->]; now destruct l|destruct Hn as [-> X]; auto]).
  assert (PP : fpos p = foff p) by (apply Hr; auto).
  assert (B : zlen l < 2 ^ 63).
  { destruct Hr as (_ & Hc' & (a & Ea & _) & _). rewrite Ea in Hc'. revert Hc'. destruct lf; [destruct Hn as [r' ->]|destruct Hn as [-> _]]; zl; zpos; lia. }
  assert (X : exists p' b', nextlen_loop fuel p b 0 = Ret (0, 0 + zlen l - flen p', p', b') /\ 0 <= flen p' <= zlen l /\ zlen b' = 1024 /\ ffd p' = ffd p /\ fcont p' = fcont p).
  { destruct lf.
    - destruct Hn as [r' ->]. apply (nextlen_lf fuel l r'); auto; lia.
    - destruct Hn as [-> _]. destruct Hc as [|M]; [discriminate|].
      destruct (nextlen_last fuel l p b 0 Hr Nl Lb Hf ltac:(lia) ltac:(lia)) as (p' & b' & H2 & H3 & H4 & [(_ & E & B')|(M' & _)]); [|congruence].
      exists p', b'. auto. }
  destruct X as (p' & b' & E & B1 & L' & FD & FC). rewrite E. cbn [bind Z.eqb negb]. replace (0 + zlen l - flen p' + flen p') with (zlen l) by lia.
  rewrite u64_id by lia. eexists _, b'. split; [reflexivity|]. cbn. split; auto. split; auto. split; auto.
  destruct Hr as (H1 & H2 & (a & Ea & Eo) & H3). split; [cbn; congruence|]. split; [cbn; now rewrite FC|]. split; [exists a; cbn; split; congruence|]. reflexivity.
Qed.
Lemma getnext_bad fuel p b r : at_rest p r -> no_lf r -> zlen b = 1024 -> (Z.to_nat (zlen r) < fuel)%nat -> (zlen r) mod 1024 = 0 ->
  exists p' b', getnextlinelength fuel p b = Ret (-1, p', b') /\ fpos p' = fpos p + zlen r.
Proof.
  intros Hr Nl Lb Hf M. unfold getnextlinelength.
  assert (B : zlen r < 2 ^ 63). { destruct Hr as (_ & Hc' & (a & Ea & _) & _). rewrite Ea in Hc'. revert Hc'. zl; zpos; lia. }
  destruct (nextlen_last fuel r p b 0 Hr Nl Lb Hf ltac:(lia) ltac:(lia)) as (p' & b' & H2 & H3 & H4 & [(M' & _)|(_ & E & B')]); [congruence|].
  rewrite E. cbn [bind]. change (-2 =? 0) with false. cbn [negb]. exists p', b'. auto.
Qed.
Lemma file_lines_total r : exists ls, file_lines r ls.
Proof.
  remember (length r) as n. assert (L : (length r <= n)%nat) by lia. clear Heqn. revert r L. induction n as [|n IH]; intros r L.
  - destruct r; [exists []; constructor|cbn in L; lia].
  - assert (D : no_lf r \/ exists l r', r = l ++ 10 :: r' /\ no_lf l).
    { clear. induction r as [|c r [N|(l & r' & -> & N)]]; [left; easy| |].
      - destruct (Z.eq_dec c 10) as [->|X]; [right; exists [], r; split; [auto|easy]|left; intros [Y|Y]; auto].
      - destruct (Z.eq_dec c 10) as [->|X]; [right; exists [], (l ++ 10 :: r'); split; [auto|easy]|right; exists (c :: l), r'; split; [auto|intros [Y|Y]; auto]]. }
    destruct D as [N|(l & r' & -> & N)].
    + destruct r; [exists []; constructor|]. eexists. apply FLlast; [congruence|auto].
    + destruct (IH r') as [ls H]. { rewrite app_length in L. cbn in L. lia. } exists (l :: ls). now constructor.
Qed.
