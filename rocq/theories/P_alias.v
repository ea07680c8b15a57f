(** Proofs about adding an item of a list to the same list. *)
From Verif Require Import Base Cstr M_sblist S_sblist D_sblist P_sblist.
From Verif Require M_tglist S_tglist D_tglist P_tglist P_tgilist.
From Verif Require Import M_alias.

(** the items of p ++ hd :: q *)
Lemma znth_ins_lt {A} (d : A) p hd q i : 0 <= i < zlen p -> znth d (p ++ hd :: q) i = znth d (p ++ q) i.
Proof. intros. now rewrite !znth_app1 by lia. Qed.
Lemma znth_ins_gt {A} (d : A) p hd q i : zlen p < i -> znth d (p ++ hd :: q) i = znth d (p ++ q) (i - 1).
Proof. intros. rewrite !znth_app2 by lia. rewrite znth_consS by lia. f_equal. lia. Qed.

(** ---------- sblist ---------- *)
Lemma sized_znth n xs i : sized n xs -> 0 <= i < zlen xs -> zlen (znth [] xs i) = n.
Proof. intros H Hi. exact (Forall_znth _ [] xs i H Hi). Qed.
Lemma inv_off lim l xs i : Inv lim l xs -> lim * isz l < 2 ^ 64 -> 0 <= i <= zlen xs -> item_off l i = i * isz l.
Proof. intros I HL Hi. dinv I. apply item_off_eq. nia. Qed.
Lemma inv_at lim l xs i : Inv lim l xs -> lim * isz l < 2 ^ 64 -> 0 <= i < zlen xs -> zreads (mem l) (i * isz l) (isz l) = Ret (znth [] xs i).
Proof.
  intros I HL Hi. destruct (inv_reads _ _ _ I HL) as [_ [R _]]. destruct (R i Hi) as [off [G Z0]].
  unfold sblist_get in G. rewrite (i_cnt _ _ _ I) in G. replace (i <? zlen xs) with true in G by lia. injection G as <-.
  rewrite (inv_off _ _ _ _ I HL) in Z0 by lia. exact Z0.
Qed.
Lemma set_own_eq lim l xs i pos : Inv lim l xs -> lim * isz l < 2 ^ 64 -> 0 <= i < zlen xs -> 0 <= pos < zlen xs -> i <> pos ->
  sblist_set_own l (i * isz l) pos = sblist_set l (znth [] xs i) pos.
Proof.
  intros I HL Hi Hp Hne. pose proof (i_isz _ _ _ I). unfold sblist_set_own, sblist_set, memcpy_own. rewrite (i_cnt _ _ _ I).
  replace (zlen xs <=? pos) with false by lia. rewrite (inv_off _ _ _ _ I HL) by lia.
  replace ((pos * isz l <? i * isz l + isz l) && (i * isz l <? pos * isz l + isz l)) with false by nia.
  rewrite (inv_at _ _ _ _ I HL) by lia. reflexivity.
Qed.
Lemma set_own_ub lim l xs pos : Inv lim l xs -> lim * isz l < 2 ^ 64 -> 0 <= pos < zlen xs -> sblist_set_own l (pos * isz l) pos = UB.
Proof.
  intros I HL Hp. pose proof (i_isz _ _ _ I). unfold sblist_set_own, memcpy_own. rewrite (i_cnt _ _ _ I).
  replace (zlen xs <=? pos) with false by lia. rewrite (inv_off _ _ _ _ I HL) by lia.
  replace ((pos * isz l <? pos * isz l + isz l) && (pos * isz l <? pos * isz l + isz l)) with true by lia. reflexivity.
Qed.
(** after the move the list is p ++ hd :: q, hd being what was there before *)
Definition made_room (l : sbl) (pos : Z) : out sbl :=
  let* m := zmove (mem l) (item_off l (u64 (pos + 1))) (item_off l pos) (u64 (u64 (cnt l - pos) * isz l)) in
  Ret (inc_count (mkSbl (isz l) (bits l) (cnt l) (capa l) m)).
Lemma room_ok lim l p q : Inv lim l (p ++ q) -> lim * isz l < 2 ^ 64 -> cnt l < capa l ->
  exists l2 hd, made_room l (zlen p) = Ret l2 /\ Inv lim l2 (p ++ hd :: q) /\ isz l2 = isz l /\ bits l2 = bits l.
Proof.
  intros I HL Hc. dinv I. zl. zpos. apply sized_app in Hsz as [Hp Hq]. unfold made_room.
  assert (HcI : capa l * isz l < 2 ^ 64) by nia.
  assert (Hcl : cnt l + 1 <= capa l) by lia.
  assert (HcJ : (cnt l + 1) * isz l <= capa l * isz l) by nia.
  rewrite (u64_id (zlen p + 1)) by nia. rewrite !item_off_eq by nia.
  rewrite (u64_id (cnt l - zlen p)) by nia. rewrite u64_id by nia.
  rewrite concat_app in Hmem. rewrite <- app_assoc in Hmem.
  pose proof (zlen_concat _ _ Hp) as Lp. pose proof (zlen_concat _ _ Hq) as Lq.
  assert (Hr : isz l <= zlen rest) by nia.
  destruct (zsplit (isz l) (concat q ++ rest)) as [hd [tl [Ht Hhd]]]; [zl; zpos; lia|].
  destruct (zsplit (zlen (concat q)) tl) as [mid [r2 [-> Hmid]]].
  { assert (zlen (concat q ++ rest) = zlen (hd ++ tl)) by congruence. zlia. }
  unfold zmove.
  assert (R1 : zreads (mem l) (zlen p * isz l) ((cnt l - zlen p) * isz l) = Ret (concat q)) by (rewrite Hmem; apply zreads_at; lia).
  rewrite R1. cbn [bind].
  assert (EM : mem l = (concat p ++ hd) ++ mid ++ r2) by (rewrite Hmem, Ht, <- !app_assoc; reflexivity). rewrite EM.
  rewrite zwrites_at by (zl; lia). cbn [bind]. eexists. exists hd. split; [reflexivity|]. split; [|split; reflexivity].
  constructor; cbn; try lia.
  - rewrite u64_id by nia. zl; lia.
  - rewrite u64_id by nia. lia.
  - exists r2. rewrite concat_app. cbn [concat]. rewrite <- !app_assoc. split; [reflexivity|]. zl. lia.
  - rewrite EM in Hcm. zl. lia.
  - apply sized_app; split; [auto|apply sized_cons; auto].
Qed.

Section R.
Variables (itemsize blockitems : Z) (h : list (alloc * op)) (l : sbl) (xs : list item).
Hypothesis HR : reachable itemsize blockitems h l xs.
Variables (i off : Z).
Hypothesis Hi : 0 <= i.
Hypothesis Hg : sblist_get l i = Some off.

Lemma own_inv : exists lim, Inv lim l xs /\ zlen xs + bits l <= lim /\ lim * isz l < 2 ^ 64 /\ 0 <= i < zlen xs /\ off = i * isz l.
Proof using All.
  destruct (reachable_inv _ _ _ _ _ HR) as [lim [I [HB [HL _]]]]. exists lim. split; [assumption|]. split; [assumption|]. split; [assumption|].
  unfold sblist_get in Hg. rewrite (i_cnt _ _ _ I) in Hg. destruct (i <? zlen xs) eqn:E; [|discriminate].
  split; [lia|]. injection Hg as <-. apply (inv_off lim l xs); auto. lia.
Qed.
Lemma set_own_reach pos : 0 <= pos < zlen xs ->
  if i =? pos then sblist_set_own l off pos = UB
  else exists l', sblist_set_own l off pos = Ret (1, l') /\ reads_as l' (ztake pos xs ++ znth [] xs i :: zdrop (pos + 1) xs).
Proof using All.
  intros Hp. destruct own_inv as [lim [I [HB [HL [Hx ->]]]]]. destruct (i =? pos) eqn:E.
  - assert (i = pos) by lia. subst pos. now apply (set_own_ub lim l xs).
  - rewrite (set_own_eq lim l xs) by (auto; lia). pose proof (sized_znth _ _ i (i_sized _ _ _ I) Hx) as Hz.
    remember (znth [] xs i) as y. destruct (zsplit_at xs pos Hp) as [p [x [q [Ex Hl]]]].
    assert (E1 : ztake pos xs = p) by (subst xs pos; apply ztake_app_exact).
    assert (E2 : zdrop (pos + 1) xs = q).
    { subst xs pos. replace (p ++ x :: q) with ((p ++ [x]) ++ q) by (now rewrite <- app_assoc). rewrite <- (zdrop_app_exact (p ++ [x]) q) at 2. f_equal. zl. lia. }
    rewrite E1, E2. rewrite Ex in I.
    destruct (set_ok lim l p x q y pos I HL Hz ltac:(lia)) as [l' [-> [I' [Ei _]]]]. exists l'. split; [reflexivity|]. apply (inv_reads lim); [assumption|now rewrite Ei].
Qed.
(** adding while there is room *)
Lemma add_own_reach al :
  if cnt l <? capa l then exists l', sblist_add_own al l off = Ret (1, l') /\ reads_as l' (xs ++ [znth [] xs i])
  else sblist_add_own al l off = match al with Some _ => UB | None => Ret (0, l) end.
Proof using All.
  destruct own_inv as [lim [I [HB [HL [Hx ->]]]]]. pose proof (i_capa _ _ _ I) as Hca. unfold sblist_add_own. destruct (cnt l <? capa l) eqn:E.
  - unfold sblist_grow_if_needed. replace (cnt l =? capa l) with false by lia. change (1 =? 0) with false. cbv iota.
    pose proof (sized_znth _ _ i (i_sized _ _ _ I) Hx) as Hz.
    destruct (add_ok lim al l xs _ I HB HL Hz) as [r [l' [EA HA]]]. unfold sblist_add, sblist_grow_if_needed in EA. replace (cnt l =? capa l) with false in EA by lia.
    change (1 =? 0) with false in EA. cbv iota in EA.
    set (l2 := inc_count l) in *. dinv I. zpos.
    assert (HcI : capa l * isz l < 2 ^ 64) by nia.
    assert (HcJ : (cnt l + 1) * isz l <= capa l * isz l) by nia.
    assert (C2 : cnt l2 = cnt l + 1) by (subst l2; cbn; apply u64_id; nia).
    assert (EO : sblist_set_own l2 (i * isz l) (u64 (cnt l2 - 1)) = sblist_set l2 (znth [] xs i) (u64 (cnt l2 - 1))).
    { destruct (zsplit (isz l) rest) as [hd [r2 [-> Hhd]]]; [nia|].
      pose proof (zlen_concat _ _ Hsz) as Lx.
      assert (I2 : Inv lim l2 (xs ++ [hd])).
      { constructor; rewrite ?C2; cbn; try lia.
        - zl; lia.
        - exists r2. rewrite concat_app. cbn [concat]. rewrite app_nil_r, <- !app_assoc. split; [assumption|]. zl. lia.
        - apply sized_app; split; [auto|apply sized_cons; split; [auto|constructor]]. }
      rewrite C2, u64_id by nia. change (isz l) with (isz l2). rewrite (set_own_eq lim l2 (xs ++ [hd])) by (try assumption; zl; lia).
      now rewrite znth_app1 by lia. }
    rewrite EO, EA. destruct HA as [[-> [-> Hm]]|[-> [I' [Ei _]]]].
    + exfalso. unfold sblist_set in EA. destruct (cnt l2 <=? _) eqn:Ec; [rewrite C2, u64_id in Ec by nia; lia|].
      destruct (zwrites _ _ _); cbn [bind] in EA; discriminate.
    + exists l'. split; [reflexivity|]. apply (inv_reads lim); [assumption|now rewrite Ei].
  - unfold sblist_grow_if_needed. replace (cnt l =? capa l) with true by lia. destruct al; reflexivity.
Qed.
Lemma insert_own_reach al pos : 0 <= pos <= zlen xs ->
  if cnt l <? capa l then
    if i =? pos then sblist_insert_own al l off pos = UB
    else exists l', sblist_insert_own al l off pos = Ret (1, l') /\
           reads_as l' (ztake pos xs ++ znth [] xs (if i <? pos then i else i - 1) :: zdrop pos xs)
  else match al with Some _ => sblist_insert_own al l off pos = UB | None => sblist_insert_own al l off pos = Ret (0, l) end.
Proof using All.
  intros Hp. destruct own_inv as [lim [I [HB [HL [Hx ->]]]]]. pose proof (i_capa _ _ _ I) as Hca. unfold sblist_insert_own.
  destruct (zsplit pos xs) as [p [q [Ex Hl]]]; [lia|].
  destruct (cnt l <? capa l) eqn:E.
  - unfold sblist_grow_if_needed. replace (cnt l =? capa l) with false by lia. change (1 =? 0) with false. cbv iota.
    rewrite Ex in I. destruct (room_ok lim l p q I HL ltac:(lia)) as [l2 [hd [ER [I2 [Ei Eb]]]]].
    rewrite Hl in ER. unfold made_room in ER. destruct (zmove _ _ _ _) as [m| |] eqn:EM; cbn [bind] in ER; try discriminate. injection ER as ER. cbn [bind]. rewrite ER.
    rewrite <- Ei. assert (HL2 : lim * isz l2 < 2 ^ 64) by now rewrite Ei. assert (Hlen : zlen xs = zlen p + zlen q) by (rewrite Ex; zl; lia). zpos.
    destruct (i =? pos) eqn:Eq.
    + assert (i = pos) by lia. subst i. apply (set_own_ub lim l2 (p ++ hd :: q)); auto. zl. lia.
    + rewrite (set_own_eq lim l2 (p ++ hd :: q)) by (auto; zl; lia).
      pose proof (sized_znth _ _ i (i_sized _ _ _ I2) ltac:(zl; lia)) as Hz.
      assert (EY : znth [] (p ++ hd :: q) i = znth [] xs (if i <? pos then i else i - 1)).
      { rewrite Ex. destruct (i <? pos) eqn:El; [apply znth_ins_lt; lia|apply znth_ins_gt; lia]. }
      rewrite EY in *.
      destruct (set_ok lim l2 p hd q _ pos I2 HL2 Hz ltac:(lia)) as [l3 [-> [I3 [E3 _]]]]. exists l3. split; [reflexivity|].
      assert (T1 : ztake pos xs = p) by (rewrite Ex, <- Hl; apply ztake_app_exact).
      assert (T2 : zdrop pos xs = q) by (rewrite Ex, <- Hl; apply zdrop_app_exact).
      rewrite T1, T2. apply (inv_reads lim); [assumption|now rewrite E3].
  - unfold sblist_grow_if_needed. replace (cnt l =? capa l) with true by lia. destruct al as [junk|]; [|reflexivity].
    change (1 =? 0) with false. cbv iota. destruct (zmove _ _ _ _) as [m| |] eqn:EM; cbn [bind]; try reflexivity. exfalso.
    destruct (P_sblist.insert_ok lim (Some junk) l p q (zrepeat 0 (isz l)) pos) as [r [l' [E1 _]]]; try rewrite <- Ex; auto; try lia.
    { rewrite zlen_zrepeat; [reflexivity|]. pose proof (i_isz _ _ _ I); lia. }
    unfold sblist_insert, sblist_grow_if_needed in E1. replace (cnt l =? capa l) with true in E1 by lia. change (1 =? 0) with false in E1. cbv iota in E1. rewrite EM in E1. discriminate E1.
Qed.
End R.
