(** Proofs about sblist. *)
From Verif Require Import Base M_sblist S_sblist D_sblist.

Lemma zlen_fresh junk i n : 0 <= n -> zlen (fresh junk i n) = n.
Proof. intros; unfold zlen, fresh; rewrite map_length, seq_length; lia. Qed.

Lemma zlen_resized b n junk : 0 <= n -> zlen (resized b n junk) = n.
Proof.
  intros; unfold resized. zl. destruct (Z_le_gt_dec n (zlen b)).
  - rewrite zlen_ztake by lia. unfold fresh.
    replace (Z.to_nat (n - zlen b)) with O by lia. cbn. lia.
  - rewrite ztake_all by lia. rewrite zlen_fresh by lia. lia.
Qed.

Definition sized (n : Z) (xs : list item) : Prop := Forall (fun x => zlen x = n) xs.

Lemma zlen_concat n xs : sized n xs -> zlen (concat xs) = zlen xs * n.
Proof. induction 1 as [|x xs Hx Hxs IH]; cbn [concat]; zl; nia. Qed.

Record Inv (lim : Z) (l : sbl) (xs : list item) : Prop := {
  i_isz : 1 <= isz l;
  i_bits : 1 <= bits l;
  i_cnt : cnt l = zlen xs;
  i_capa : cnt l <= capa l;
  i_mem : exists rest, mem l = concat xs ++ rest /\ (zlen xs * isz l + zlen rest = zlen (mem l));
  i_cm : capa l * isz l <= zlen (mem l);
  i_sized : sized (isz l) xs;
  i_lim : capa l <= lim
}.

Ltac dinv H := destruct H as [Hisz Hbits Hcnt Hcapa [rest [Hmem Hml]] Hcm Hsz Hlim].

Lemma sized_app n p q : sized n (p ++ q) <-> sized n p /\ sized n q.
Proof. apply Forall_app. Qed.
Lemma sized_cons n x q : sized n (x :: q) <-> zlen x = n /\ sized n q.
Proof. apply Forall_cons_iff. Qed.

Lemma concat_rest n xs l rest : sized n xs -> zlen (concat xs ++ rest) = l -> zlen xs * n + zlen rest = l.
Proof. intros H <-. zl. rewrite (zlen_concat _ _ H). lia. Qed.

Lemma Inv_weaken lim lim' l xs : lim <= lim' -> Inv lim l xs -> Inv lim' l xs.
Proof. intros H I; dinv I; constructor; eauto; lia. Qed.

Lemma item_off_eq l idx : 0 <= idx * isz l < 2 ^ 64 -> item_off l idx = idx * isz l.
Proof. intros; unfold item_off; apply u64_id; lia. Qed.

Lemma set_ok lim l p x q y pos :
  Inv lim l (p ++ x :: q) -> lim * isz l < 2 ^ 64 -> zlen y = isz l -> pos = zlen p ->
  exists l', sblist_set l y pos = Ret (1, l') /\ Inv lim l' (p ++ y :: q) /\
             isz l' = isz l /\ bits l' = bits l /\ cnt l' = cnt l /\ capa l' = capa l.
Proof.
  intros I HL Hy ->. dinv I. unfold sblist_set. zl. zpos.
  apply sized_app in Hsz as [Hp Hxq]. apply sized_cons in Hxq as [Hx Hq].
  replace (cnt l <=? zlen p) with false by lia.
  rewrite item_off_eq by nia.
  rewrite concat_app in Hmem. cbn [concat] in Hmem. rewrite <- !app_assoc in Hmem.
  rewrite Hmem. rewrite zwrites_at.
  - cbn [bind]. eexists; split; [reflexivity|]. cbn. repeat split; auto; cbn; try lia.
    + zl; lia.
    + exists rest. split; [now rewrite concat_app; cbn [concat]; rewrite <- !app_assoc|].
      zl. rewrite (zlen_concat _ _ Hp), (zlen_concat _ _ Hq). lia.
    + rewrite Hmem in Hcm. zl. lia.
    + apply sized_app; split; [auto|apply sized_cons; auto].
  - now rewrite (zlen_concat _ _ Hp).
  - lia.
Qed.

(** growing *)
Lemma grow_ok lim al l xs :
  Inv lim l xs -> (zlen xs + bits l <= lim) -> lim * isz l < 2 ^ 64 ->
  exists r l', sblist_grow_if_needed al l = (r, l') /\
    (r = 0 /\ l' = l /\ mem_ok al = false \/
     r = 1 /\ Inv lim l' xs /\ cnt l' < capa l' /\ isz l' = isz l /\ bits l' = bits l).
Proof.
  intros I HB HL. dinv I. unfold sblist_grow_if_needed. zpos.
  destruct (cnt l =? capa l) eqn:E.
  - destruct al as [junk|].
    + do 2 eexists; split; [reflexivity|]. right; cbn.
      assert (capa l + bits l <= lim) by lia.
      rewrite (u64_id (capa l + bits l)) by nia.
      rewrite u64_id by nia.
      assert (Hn : zlen (concat xs) <= (capa l + bits l) * isz l)
        by (rewrite (zlen_concat _ _ Hsz); nia).
      repeat split; auto; cbn; try lia.
      * eexists. split.
        -- unfold resized. rewrite Hmem at 1. rewrite ztake_app2 by lia.
           rewrite <- app_assoc. reflexivity.
        -- rewrite zlen_resized by nia.
           pose proof (zlen_resized (mem l) ((capa l + bits l) * isz l) junk ltac:(nia)) as HH.
           unfold resized in HH. rewrite Hmem in HH at 1. rewrite ztake_app2 in HH by lia.
           zl. rewrite (zlen_concat _ _ Hsz) in *. lia.
      * rewrite zlen_resized by nia. lia.
    + do 2 eexists; split; [reflexivity|]. left; auto.
  - do 2 eexists; split; [reflexivity|]. right. repeat split; eauto; try lia.
Qed.

Lemma insert_ok lim al l p q y pos :
  Inv lim l (p ++ q) -> zlen (p ++ q) + bits l <= lim -> lim * isz l < 2 ^ 64 ->
  zlen y = isz l -> pos = zlen p ->
  exists r l', sblist_insert al l y pos = Ret (r, l') /\
    (r = 0 /\ l' = l /\ mem_ok al = false \/
     r = 1 /\ Inv lim l' (p ++ y :: q) /\ isz l' = isz l /\ bits l' = bits l).
Proof.
  intros I HB HL Hy ->. unfold sblist_insert.
  destruct (grow_ok lim al l (p ++ q) I HB HL) as [r [l' [-> [[-> [-> Hm]]|[-> [I' [Hc [Hi Hb]]]]]]]].
  - cbn. do 2 eexists; split; [reflexivity|]. left; auto.
  - change (1 =? 0) with false. cbv iota.
    clear I. dinv I'. rewrite Hi in *. zl. zpos.
    apply sized_app in Hsz as [Hp Hq].
    assert (HcI : capa l' * isz l < 2 ^ 64) by nia.
    assert (Hcl : cnt l' + 1 <= capa l') by lia.
    assert (HcJ : (cnt l' + 1) * isz l <= capa l' * isz l) by nia.
    rewrite (u64_id (zlen p + 1)) by nia.
    rewrite !item_off_eq by (rewrite Hi; nia). rewrite Hi.
    rewrite (u64_id (cnt l' - zlen p)) by nia.
    rewrite u64_id by nia.
    rewrite concat_app in Hmem. rewrite <- app_assoc in Hmem.
    pose proof (zlen_concat _ _ Hp) as Lp. pose proof (zlen_concat _ _ Hq) as Lq.
    assert (Hr : isz l <= zlen rest) by nia.
    destruct (zsplit (isz l) (concat q ++ rest)) as [hd [tl [Ht Hhd]]]; [zl; zpos; lia|].
    destruct (zsplit (zlen (concat q)) tl) as [mid [r2 [-> Hmid]]].
    { assert (zlen (concat q ++ rest) = zlen (hd ++ tl)) by congruence. zlia. }
    unfold zmove.
    assert (R1 : zreads (mem l') (zlen p * isz l) ((cnt l' - zlen p) * isz l) = Ret (concat q))
      by (rewrite Hmem; apply zreads_at; lia).
    rewrite R1. cbn [bind].
    replace (mem l') with ((concat p ++ hd) ++ mid ++ r2)
      by (rewrite Hmem, Ht, <- !app_assoc; reflexivity).
    rewrite zwrites_at by (zl; lia). cbn [bind].
    set (l2 := inc_count _).
    assert (I2 : Inv lim l2 (p ++ hd :: q)).
    { constructor; cbn; rewrite ?Hi; try lia.
      - rewrite u64_id by nia. zl; lia.
      - rewrite u64_id by nia. lia.
      - exists r2. rewrite concat_app. cbn [concat]. rewrite <- !app_assoc.
        split; [reflexivity|]. zl. lia.
      - rewrite Hmem, Ht in Hcm. zl. lia.
      - apply sized_app; split; [auto|apply sized_cons; auto]. }
    assert (E2 : isz l2 = isz l) by reflexivity.
    assert (B2 : bits l2 = bits l) by exact Hb.
    destruct (set_ok lim l2 p hd q y (zlen p) I2) as [l3 [-> [I3 [E3 [B3 [C3 K3]]]]]];
      try (rewrite E2; lia); [reflexivity|].
    do 2 eexists; split; [reflexivity|]. right. repeat split; try apply I3; try congruence.
Qed.

Lemma add_ok lim al l xs y :
  Inv lim l xs -> zlen xs + bits l <= lim -> lim * isz l < 2 ^ 64 -> zlen y = isz l ->
  exists r l', sblist_add al l y = Ret (r, l') /\
    (r = 0 /\ l' = l /\ mem_ok al = false \/
     r = 1 /\ Inv lim l' (xs ++ [y]) /\ isz l' = isz l /\ bits l' = bits l).
Proof.
  intros I HB HL Hy. unfold sblist_add.
  destruct (grow_ok lim al l xs I HB HL) as [r [l' [-> [[-> [-> Hm]]|[-> [I' [Hc [Hi Hb]]]]]]]].
  - cbn. do 2 eexists; split; [reflexivity|]. left; auto.
  - change (1 =? 0) with false. cbv iota. clear I.
    set (l2 := inc_count l'). dinv I'. rewrite Hi in *. zpos.
    assert (HcJ : (cnt l' + 1) * isz l <= capa l' * isz l) by nia.
    assert (HcI : capa l' * isz l < 2 ^ 64) by nia.
    pose proof (zlen_concat _ _ Hsz) as Lx.
    destruct (zsplit (isz l) rest) as [hd [r2 [-> Hhd]]]; [nia|].
    assert (C2 : cnt l2 = cnt l' + 1) by (subst l2; cbn; apply u64_id; nia).
    assert (I2 : Inv lim l2 (xs ++ [hd])).
    { constructor; rewrite ?C2; cbn; rewrite ?Hi; try lia.
      - zl; lia.
      - exists r2. rewrite concat_app. cbn [concat]. rewrite app_nil_r, <- !app_assoc.
        split; [assumption|]. zl. lia.
      - apply sized_app; split; [auto|apply sized_cons; split; [auto|constructor]]. }
    rewrite C2. replace (cnt l' + 1 - 1) with (zlen xs) by lia. rewrite u64_id by nia.
    assert (E2 : isz l2 = isz l) by exact Hi.
    assert (B2 : bits l2 = bits l) by exact Hb.
    destruct (set_ok lim l2 xs hd [] y (zlen xs) I2) as [l3 [-> [I3 [E3 [B3 [C3 K3]]]]]];
      try (rewrite E2; lia); [reflexivity|].
    do 2 eexists; split; [reflexivity|]. right. repeat split; try apply I3; try congruence.
Qed.


Lemma grow_cnt al l r l' : sblist_grow_if_needed al l = (r, l') -> cnt l' = cnt l.
Proof.
  unfold sblist_grow_if_needed. destruct (cnt l =? capa l); [destruct al|];
    intros H; inversion H; reflexivity.
Qed.

Lemma addi_ok lim al l xs y :
  Inv lim l xs -> zlen xs + bits l <= lim -> lim * isz l < 2 ^ 64 -> zlen y = isz l ->
  exists r l', sblist_addi al l y = Ret (r, l') /\
    (r = SIZE_MAX /\ l' = l /\ mem_ok al = false \/
     r = zlen xs /\ Inv lim l' (xs ++ [y]) /\ isz l' = isz l /\ bits l' = bits l).
Proof.
  intros I HB HL Hy. pose proof (add_ok lim al l xs y I HB HL Hy) as [r [l' [HA HR]]].
  unfold sblist_add in HA. unfold sblist_addi.
  destruct (sblist_grow_if_needed al l) as [ok l1] eqn:G. apply grow_cnt in G.
  assert (HN : 0 <= cnt l /\ cnt l + 1 < 2 ^ 64).
  { dinv I. zpos. split; [lia|]. assert (cnt l + bits l <= lim) by lia. nia. }
  destruct (ok =? 0).
  - inversion HA; subst. do 2 eexists; split; [reflexivity|].
    destruct HR as [[_ [-> Hm]]|[? _]]; [left; auto|discriminate].
  - rewrite HA. cbn [bind]. do 2 eexists; split; [reflexivity|].
    destruct HR as [[-> [-> Hm]]|[-> [I' [Hi Hb]]]].
    + exfalso. unfold sblist_set in HA.
      assert (E : cnt (inc_count l1) = cnt l + 1) by (cbn; rewrite G; apply u64_id; lia).
      rewrite E in HA. rewrite u64_id in HA by lia.
      replace (cnt l + 1 <=? cnt l + 1 - 1) with false in HA by lia.
      destruct (zwrites _ _ _); discriminate.
    + right. split; [|auto]. dinv I'. zl. zpos. rewrite Hcnt.
      replace (zlen xs + (1 + 0) - 1) with (zlen xs) by lia. apply u64_id. 
      rewrite (i_cnt _ _ _ I) in HN. lia.
Qed.

Lemma delete_ok lim l p x q :
  Inv lim l (p ++ x :: q) -> lim * isz l < 2 ^ 64 ->
  exists l', sblist_delete l (zlen p) = Ret l' /\ Inv lim l' (p ++ q) /\
    isz l' = isz l /\ bits l' = bits l /\
    (q = [] -> mem l' = mem l).
Proof.
  intros I HL. dinv I. unfold sblist_delete. zl. zpos.
  apply sized_app in Hsz as [Hp Hxq]. apply sized_cons in Hxq as [Hx Hq].
  replace (_ && _) with true by lia.
  assert (HcI : capa l * isz l < 2 ^ 64) by nia.
  assert (HcJ : cnt l * isz l <= capa l * isz l) by nia.
  rewrite (u64_id (zlen p + 1)) by nia.
  rewrite !item_off_eq by nia.
  rewrite (u64_id (cnt l - (zlen p + 1))) by nia.
  rewrite u64_id by nia.
  pose proof (zlen_concat _ _ Hp) as Lp. pose proof (zlen_concat _ _ Hq) as Lq.
  rewrite concat_app in Hmem. cbn [concat] in Hmem. rewrite <- !app_assoc in Hmem.
  unfold zmove.
  assert (R1 : zreads (mem l) ((zlen p + 1) * isz l) ((cnt l - (zlen p + 1)) * isz l) = Ret (concat q)).
  { replace (mem l) with ((concat p ++ x) ++ concat q ++ rest)
      by (rewrite Hmem, <- !app_assoc; reflexivity).
    apply zreads_at; zl; lia. }
  rewrite R1. cbn [bind].
  destruct (zsplit (zlen (concat q)) (x ++ concat q)) as [hd [tl [Ht Hhd]]]; [zlia|].
  assert (Htl : zlen tl = isz l).
  { assert (zlen (x ++ concat q) = zlen (hd ++ tl)) by congruence. zlia. }
  replace (mem l) with (concat p ++ hd ++ (tl ++ rest))
    by (rewrite Hmem, (app_assoc hd), <- Ht, <- !app_assoc; reflexivity).
  rewrite zwrites_at by lia. cbn [bind].
  eexists; split; [reflexivity|]. split; [|repeat split; cbn; auto].
  - constructor; cbn; auto; try lia.
    + rewrite u64_id by lia. zl. lia.
    + rewrite u64_id by lia. lia.
    + exists (tl ++ rest). rewrite concat_app, <- !app_assoc. split; [reflexivity|]. zl. lia.
    + rewrite Hmem in Hcm. zl. lia.
    + apply sized_app; auto.
  - intros ->. cbn [concat] in *. rewrite zlen_nil in Hhd. apply zlen_0 in Hhd. subst hd.
    cbn [app] in *. rewrite app_nil_r in Ht. now subst.
Qed.

Lemma get_ok lim l p x q :
  Inv lim l (p ++ x :: q) -> lim * isz l < 2 ^ 64 ->
  sblist_get l (zlen p) = Some (zlen p * isz l) /\
  zreads (mem l) (zlen p * isz l) (isz l) = Ret x.
Proof.
  intros I HL. dinv I. zl. zpos. unfold sblist_get.
  replace (zlen p <? cnt l) with true by lia.
  assert (HcJ : cnt l * isz l <= capa l * isz l) by nia.
  assert (HcI : capa l * isz l < 2 ^ 64) by nia.
  rewrite item_off_eq by nia. split; [reflexivity|].
  apply sized_app in Hsz as [Hp Hxq]. apply sized_cons in Hxq as [Hx Hq].
  pose proof (zlen_concat _ _ Hp) as Lp.
  rewrite Hmem, concat_app. cbn [concat]. rewrite <- !app_assoc. apply zreads_at; lia.
Qed.

Lemma get_none lim l xs i : Inv lim l xs -> zlen xs <= i -> sblist_get l i = None.
Proof. intros I Hi. unfold sblist_get. rewrite (i_cnt _ _ _ I). now replace (i <? zlen xs) with false by lia. Qed.

Lemma inv_reads lim l xs : Inv lim l xs -> lim * isz l < 2 ^ 64 -> reads_as l xs.
Proof.
  intros I HL. split; [apply I|split].
  - intros i Hi. pose proof (zsplit1 [] i xs Hi) as E.
    rewrite E in I. destruct (get_ok _ _ _ _ _ I HL) as [G R].
    rewrite zlen_ztake in G, R by lia. eauto.
  - intros i Hi. eapply get_none; eauto.
Qed.

Lemma zsplit_at {A} (l : list A) n : 0 <= n < zlen l -> exists p x q, l = p ++ x :: q /\ zlen p = n.
Proof.
  intros H. destruct (zsplit n l) as [p [q [-> Hp]]]; [lia|]. destruct q as [|x q].
  - zl. lia.
  - exists p, x, q. auto.
Qed.

Lemma zsplit_last {A} (l : list A) : 0 < zlen l -> exists p x, l = p ++ [x].
Proof.
  intros H. destruct (zsplit_at l (zlen l - 1)) as [p [x [q [E Hp]]]]; [lia|].
  exists p, x. rewrite E in *. zl. assert (zlen q = 0) by lia. now rewrite (zlen_0 q) by assumption.
Qed.

Lemma pop_ok lim l p x :
  Inv lim l (p ++ [x]) -> lim * isz l < 2 ^ 64 ->
  exists off l', sblist_pop l = Ret (Some off, l') /\ zreads (mem l') off (isz l') = Ret x /\
    Inv lim l' p /\ isz l' = isz l /\ bits l' = bits l.
Proof.
  intros I HL. unfold sblist_pop. pose proof (i_cnt _ _ _ I) as Hc. zl. zpos.
  replace (0 <? cnt l) with true by lia.
  replace (cnt l - 1) with (zlen p) by lia.
  destruct (get_ok _ _ _ _ _ I HL) as [-> R].
  destruct (delete_ok _ _ _ _ _ I HL) as [l' [-> [I' [Hi [Hb Hm]]]]]. cbn [bind].
  rewrite app_nil_r in I'. do 2 eexists; split; [reflexivity|].
  split; [|auto]. rewrite Hm, Hi by reflexivity. exact R.
Qed.

(** one step of a history *)
Lemma exec_ok lim al l xs o :
  Inv lim l xs -> zlen xs + bits l <= lim -> lim * isz l < 2 ^ 64 ->
  op_ok (isz l) (zlen xs) o ->
  exists r l' xs', exec al l o = Ret (r, l') /\ Inv lim l' xs' /\
    spec (mem_ok al) xs o r xs' /\ isz l' = isz l /\ bits l' = bits l /\
    zlen xs' <= zlen xs + 1.
Proof.
  intros I HB HL Hop. destruct o as [x|x|x pos|x pos|pos|]; cbn [exec op_ok] in *.
  - destruct (add_ok lim al l xs x I HB HL Hop) as [r [l' [-> [[-> [-> Hm]]|[-> [I' [Hi Hb]]]]]]]; cbn [bind];
      do 3 eexists; (split; [reflexivity|]).
    + repeat split; try apply I; try lia. rewrite Hm. now constructor.
    + repeat split; try apply I'; auto; try (zl; lia). constructor.
  - destruct (addi_ok lim al l xs x I HB HL Hop) as [r [l' [-> [[-> [-> Hm]]|[-> [I' [Hi Hb]]]]]]]; cbn [bind];
      do 3 eexists; (split; [reflexivity|]).
    + repeat split; try apply I; try lia. rewrite Hm. now constructor.
    + repeat split; try apply I'; auto; try (zl; lia). constructor.
  - destruct Hop as [Hx Hpos]. destruct (Z_lt_le_dec pos (zlen xs)).
    + destruct (zsplit_at xs pos) as [p [y [q [-> Hp]]]]; [lia|].
      destruct (set_ok lim l p y q x pos I HL Hx) as [l' [-> [I' [Hi [Hb _]]]]]; [lia|].
      cbn [bind]. do 3 eexists; split; [reflexivity|].
      repeat split; try apply I'; auto; [rewrite <- Hp; constructor|zl; lia].
    + unfold sblist_set. rewrite (i_cnt _ _ _ I). replace (_ <=? _) with true by lia. cbn [bind].
      do 3 eexists; split; [reflexivity|]. repeat split; try apply I; try lia. now constructor.
  - destruct Hop as [Hx Hpos]. destruct (zsplit pos xs) as [p [q [-> Hp]]]; [lia|].
    destruct (insert_ok lim al l p q x pos I HB HL Hx) as [r [l' [-> [[-> [-> Hm]]|[-> [I' [Hi Hb]]]]]]];
      [lia| |]; cbn [bind]; do 3 eexists; (split; [reflexivity|]).
    + repeat split; try apply I; try lia. rewrite Hm. now constructor.
    + repeat split; try apply I'; auto; [rewrite <- Hp; constructor|zl; lia].
  - destruct (Z_lt_le_dec pos (zlen xs)).
    + destruct (zsplit_at xs pos) as [p [y [q [-> Hp]]]]; [lia|]. subst pos.
      destruct (delete_ok lim l p y q I HL) as [l' [-> [I' [Hi [Hb _]]]]].
      cbn [bind]. do 3 eexists; split; [reflexivity|].
      repeat split; try apply I'; auto; [constructor|zl; lia].
    + unfold sblist_delete. rewrite (i_cnt _ _ _ I). replace (_ && _) with false by lia. cbn [bind].
      do 3 eexists; split; [reflexivity|]. repeat split; try apply I; try lia. now constructor.
  - destruct xs as [|x0 xs0].
    + unfold sblist_pop. rewrite (i_cnt _ _ _ I). cbn. do 3 eexists; split; [reflexivity|].
      repeat split; try apply I; try lia; try (cbn; lia). constructor.
    + destruct (zsplit_last (x0 :: xs0)) as [p [x E]]; [zlia|]. rewrite E in *. clear E x0 xs0.
      destruct (pop_ok lim l p x I HL) as [off [l' [-> [R [I' [Hi Hb]]]]]]. cbn [bind deref].
      rewrite R. cbn [bind]. do 3 eexists; split; [reflexivity|].
      repeat split; try apply I'; auto; [constructor|zl; lia].
Qed.

Lemma run_ok h : forall lim l xs,
  Inv lim l xs -> zlen xs + zlen h + bits l <= lim -> lim * isz l < 2 ^ 64 ->
  caller_ok l h ->
  exists rs l' xs', run l h = Ret (rs, l') /\ spec_run xs rs xs' /\ Inv lim l' xs' /\
    isz l' = isz l /\ bits l' = bits l /\ map fst rs = map (fun p => (mem_ok (fst p), snd p)) h.
Proof.
  induction h as [|[al o] h IH]; intros lim l xs I HB HL Hc.
  - cbn. do 3 eexists; split; [reflexivity|]. repeat split; try apply I. constructor.
  - cbn [caller_ok] in Hc. destruct Hc as [Hop Hc]. zl. zpos.
    rewrite (i_cnt _ _ _ I) in Hop.
    destruct (exec_ok lim al l xs o I ltac:(lia) HL Hop) as [r [l' [xs' [E [I' [Hs [Hi [Hb Hn]]]]]]]].
    rewrite E in Hc.
    destruct (IH lim l' xs' I') as [rs [l'' [xs'' [R [HS [I'' [Hi' [Hb' Hm]]]]]]]];
      [rewrite Hb; lia|rewrite Hi; assumption|assumption|].
    cbn [run]. rewrite E. cbn [bind]. rewrite R. cbn [bind].
    do 3 eexists; split; [reflexivity|]. repeat split; try apply I''; try congruence.
    + econstructor; eauto.
    + cbn. now rewrite Hm.
Qed.

Definition blockitems_eff (itemsize blockitems : Z) : Z :=
  if blockitems =? 0 then 4096 / itemsize else blockitems.

Lemma init_ok itemsize blockitems :
  1 <= itemsize -> 1 <= blockitems ->
  exists l, sblist_init itemsize blockitems = Ret l /\ isz l = itemsize /\ bits l = blockitems /\
    forall lim, 0 <= lim -> Inv lim l [].
Proof.
  intros. unfold sblist_init. replace (blockitems =? 0) with false by lia.
  eexists; split; [reflexivity|]. cbn. repeat split; cbn; try lia; [|constructor].
  exists []. auto.
Qed.

Lemma init0_ok itemsize :
  1 <= itemsize <= 4096 ->
  exists l, sblist_init itemsize 0 = Ret l /\ isz l = itemsize /\ bits l = 4096 / itemsize /\
    forall lim, 0 <= lim -> Inv lim l [].
Proof.
  intros. unfold sblist_init. cbn. replace (itemsize =? 0) with false by lia.
  assert (1 <= 4096 / itemsize) by (apply Z.div_le_lower_bound; lia).
  eexists; split; [reflexivity|]. cbn. repeat split; cbn; try lia; [|constructor].
  exists []. auto.
Qed.

(** C01/C02 main *)
Lemma history_ok itemsize blockitems h l0 :
  1 <= itemsize -> (1 <= blockitems \/ blockitems = 0 /\ itemsize <= 4096) ->
  sblist_init itemsize blockitems = Ret l0 ->
  (zlen h + bits l0) * itemsize < 2 ^ 64 ->
  caller_ok l0 h ->
  exists rs l xs, run l0 h = Ret (rs, l) /\ spec_run [] rs xs /\ reads_as l xs /\
    map fst rs = map (fun p => (mem_ok (fst p), snd p)) h.
Proof.
  intros Hi Hb E HL Hc. zpos.
  assert (isz l0 = itemsize /\ 1 <= bits l0 /\ forall lim, 0 <= lim -> Inv lim l0 []) as [E1 [E2 I]].
  { destruct Hb as [Hb|[-> Hb]].
    - destruct (init_ok itemsize blockitems Hi Hb) as [l [E' [? [? ?]]]].
      rewrite E in E'; inversion E'; subst. split; [auto|split; [lia|auto]].
    - destruct (init0_ok itemsize ltac:(lia)) as [l [E' [? [? ?]]]].
      rewrite E in E'; inversion E'; subst. split; [auto|split; [|auto]].
      match goal with HH : bits l = _ |- _ => rewrite HH end. apply Z.div_le_lower_bound; lia. }
  destruct (run_ok h (zlen h + bits l0) l0 []) as [rs [l [xs [R [S [I' [Hi' [Hb' Hm]]]]]]]];
    [apply I; lia|rewrite zlen_nil; lia|rewrite E1; lia|assumption|].
  do 3 eexists; split; [exact R|]. split; [eassumption|]. split; [|assumption].
  eapply inv_reads; eauto; rewrite Hi', E1; lia.
Qed.

(** binary search *)
Lemma cmp_at_ok cmp lim l xs it i :
  Inv lim l xs -> lim * isz l < 2 ^ 64 -> 0 <= i < zlen xs ->
  cmp_at cmp l it i = Ret (cmp it (znth [] xs i)).
Proof.
  intros I HL Hi. unfold cmp_at. pose proof (inv_reads _ _ _ I HL) as [_ [HR _]].
  destruct (HR i Hi) as [off [-> ->]]. reflexivity.
Qed.

Ltac Zify.zify_post_hook ::= Z.div_mod_to_equations.

Lemma preorder_refl cmp x : total_preorder cmp -> cmp x x = 0.
Proof. intros [H _]. specialize (H x x). lia. Qed.

Lemma bsearch_loop_ok cmp lim l xs it fuel : forall base nel,
  Inv lim l xs -> lim * isz l < 2 ^ 64 ->
  0 <= base -> 0 <= nel -> base + nel <= zlen xs -> nel < Z.of_nat fuel ->
  exists r, bsearch_loop fuel cmp l it base nel = Ret r /\
   ((0 <= r < zlen xs /\ cmp it (znth [] xs r) = 0) \/
    (r = SIZE_MAX /\
     (total_preorder cmp -> sorted cmp xs ->
      (forall i, 0 <= i < base -> 0 < cmp it (znth [] xs i)) ->
      (forall i, base + nel <= i < zlen xs -> cmp it (znth [] xs i) < 0) ->
      forall i, 0 <= i < zlen xs -> cmp it (znth [] xs i) <> 0))).
Proof.
  induction fuel as [|fuel IH]; intros base nel I HL Hb Hn Hbn Hf; [lia|].
  cbn [bsearch_loop]. destruct (0 <? nel) eqn:E.
  - assert (HX : zlen xs < 2 ^ 64).
    { dinv I. zpos. nia. }
    rewrite u64_id by lia.
    rewrite (cmp_at_ok cmp lim l xs it _ I HL) by lia. cbn [bind].
    set (x := base + nel / 2). assert (0 <= x < zlen xs) by lia.
    set (c := cmp it (znth [] xs x)).
    destruct (c <? 0) eqn:C1; [|destruct (0 <? c) eqn:C2].
    + destruct (IH base (nel / 2) I HL) as [r [-> HR]]; try lia.
      eexists; split; [reflexivity|]. destruct HR as [HR|[-> HR]]; [left; auto|right].
      split; [reflexivity|]. intros HP HS H1 H2. apply HR; auto.
      intros i Hi.
      assert (Hle : cmp (znth [] xs x) (znth [] xs i) <= 0) by (apply HS; lia).
      destruct HP as [Ha Ht]. destruct (Z_lt_le_dec (cmp it (znth [] xs i)) 0) as [|Hge]; [assumption|].
      assert (cmp (znth [] xs i) it <= 0).
      { destruct (Z_le_gt_dec (cmp (znth [] xs i) it) 0); [assumption|].
        assert (cmp it (znth [] xs i) < 0) by (apply Ha; lia). lia. }
      assert (cmp (znth [] xs x) it <= 0) by (eapply Ht; eauto).
      assert (0 < cmp (znth [] xs x) it) by (apply Ha; subst c; lia). lia.
    + rewrite (u64_id (x + 1)) by lia. rewrite u64_id by lia.
      destruct (IH (x + 1) (nel - (nel / 2 + 1)) I HL) as [r [-> HR]]; try lia.
      eexists; split; [reflexivity|]. destruct HR as [HR|[-> HR]]; [left; auto|right].
      split; [reflexivity|]. intros HP HS H1 H2. apply HR; auto.
      * intros i Hi.
        assert (Hle : cmp (znth [] xs i) (znth [] xs x) <= 0) by (apply HS; lia).
        destruct HP as [Ha Ht]. destruct (Z_lt_le_dec 0 (cmp it (znth [] xs i))) as [|Hge]; [assumption|].
        assert (cmp it (znth [] xs x) <= 0) by (eapply Ht; eauto). subst c; lia.
      * intros i Hi. apply H2. lia.
    + eexists; split; [reflexivity|]. left. split; [lia|]. subst c; lia.
  - eexists; split; [reflexivity|]. right. split; [reflexivity|].
    intros HP HS H1 H2 i Hi. destruct (Z_lt_le_dec i base) as [Hl|Hg].
    + specialize (H1 i); lia.
    + specialize (H2 i); lia.
Qed.

Lemma bsearch_ok cmp lim l xs it :
  Inv lim l xs -> lim * isz l < 2 ^ 64 ->
  exists r, sblist_bsearch cmp l it = Ret r /\
    ((0 <= r < zlen xs /\ cmp it (znth [] xs r) = 0) \/
     (r = SIZE_MAX /\
      (total_preorder cmp -> sorted cmp xs -> forall x, In x xs -> cmp it x <> 0))).
Proof.
  intros I HL. unfold sblist_bsearch. pose proof (i_cnt _ _ _ I) as Hc. zpos.
  destruct (bsearch_loop_ok cmp lim l xs it (S (Z.to_nat (cnt l))) 0 (cnt l)) as [r [-> HR]]; auto; try lia.
  eexists; split; [reflexivity|]. destruct HR as [HR|[-> HR]]; [left; auto|right].
  split; [reflexivity|]. intros HP HS x Hx.
  destruct (In_znth [] _ _ Hx) as [i [Hi <-]]. apply HR; auto; intros; lia.
Qed.

Lemma bsearch_r_loop_eq {C} (cmp : list Z -> list Z -> C -> Z) ctx l it fuel : forall base nel,
  bsearch_r_loop fuel cmp ctx l it base nel =
  bsearch_loop fuel (fun a b => cmp a b ctx) l it base nel.
Proof.
  induction fuel as [|fuel IH]; intros; [reflexivity|]. cbn [bsearch_loop bsearch_r_loop].
  destruct (0 <? nel); [|reflexivity].
  change (cmp_at_r cmp ctx l it (u64 (base + nel / 2)))
    with (cmp_at (fun a b => cmp a b ctx) l it (u64 (base + nel / 2))).
  destruct (cmp_at _ _ _ _); cbn [bind]; try reflexivity.
  rewrite !IH. reflexivity.
Qed.

Lemma sorted_pos_r_loop_eq {C} (cmp : list Z -> list Z -> C -> Z) ctx l it fuel : forall hi lo,
  sorted_pos_r_loop fuel cmp ctx l it hi lo =
  sorted_pos_loop fuel (fun a b => cmp a b ctx) l it hi lo.
Proof.
  induction fuel as [|fuel IH]; intros; [reflexivity|]. cbn [sorted_pos_loop sorted_pos_r_loop].
  match goal with |- context [cmp_at_r cmp ctx l it ?x] =>
    change (cmp_at_r cmp ctx l it x) with (cmp_at (fun a b => cmp a b ctx) l it x) end.
  destruct (cmp_at _ _ _ _) as [r| |]; cbn [bind]; try reflexivity.
  destruct (hi =? lo); [reflexivity|].
  destruct (r <? 0); [|destruct (0 <? r)]; apply IH.
Qed.

Lemma sorted_insert cmp p q o :
  total_preorder cmp -> sorted cmp (p ++ q) ->
  (forall x, In x p -> cmp x o <= 0) -> (forall x, In x q -> cmp o x <= 0) ->
  sorted cmp (p ++ o :: q).
Proof.
  intros HP HS Hp Hq i j Hij Hj. zl.
  assert (HA : forall i, 0 <= i -> znth [] (p ++ o :: q) i =
     if i <? zlen p then znth [] p i else if i =? zlen p then o else znth [] (p ++ q) (i - 1)).
  { intros k Hk. destruct (k <? zlen p) eqn:E; [apply znth_app1; lia|].
    destruct (k =? zlen p) eqn:E2.
    - replace k with (zlen p) by lia. apply znth_app_exact.
    - rewrite !znth_app2 by lia. rewrite znth_consS by lia. f_equal. lia. }
  rewrite !HA by lia.
  destruct (i <? zlen p) eqn:E1; destruct (j <? zlen p) eqn:E2; try lia.
  - specialize (HS i j). rewrite !znth_app1 in HS by lia. apply HS; zlia.
  - destruct (j =? zlen p) eqn:E3.
    + apply Hp, znth_In; lia.
    + specialize (HS i (j - 1)). rewrite (znth_app1 [] p q i) in HS by lia. apply HS; zlia.
  - destruct (i =? zlen p) eqn:E3; destruct (j =? zlen p) eqn:E4; try lia.
    + rewrite (preorder_refl cmp o HP). lia.
    + rewrite znth_app2 by lia. apply Hq, znth_In; lia.
    + apply HS; zlia.
Qed.

Lemma sorted_pos_ok cmp lim l xs o fuel : forall hi lo,
  Inv lim l xs -> lim * isz l < 2 ^ 64 ->
  0 <= hi <= lo -> lo < zlen xs -> lo - hi < Z.of_nat fuel ->
  exists r, sorted_pos_loop fuel cmp l o hi lo = Ret r /\ 0 <= r <= zlen xs /\
   (total_preorder cmp -> sorted cmp xs ->
    (forall i, 0 <= i < hi -> 0 <= cmp o (znth [] xs i)) ->
    (forall i, lo < i < zlen xs -> cmp o (znth [] xs i) <= 0) ->
    (forall i, 0 <= i < r -> 0 <= cmp o (znth [] xs i)) /\
    (forall i, r <= i < zlen xs -> cmp o (znth [] xs i) <= 0)).
Proof.
  induction fuel as [|fuel IH]; intros hi lo I HL Hh Hlo Hf; [lia|].
  cbn [sorted_pos_loop].
  assert (HX : zlen xs < 2 ^ 64).
  { pose proof I as I'. dinv I'. zpos. clear - Hisz Hbits Hcnt Hcapa Hlim HL. nia. }
  rewrite (u64_id (lo - hi)) by lia. rewrite u64_id by lia.
  set (c := hi + (lo - hi) / 2). assert (Hc : hi <= c <= lo) by lia.
  rewrite (cmp_at_ok cmp lim l xs o _ I HL) by lia. cbn [bind].
  destruct (hi =? lo) eqn:E.
  - replace c with lo in * by lia. destruct (0 <? cmp o (znth [] xs lo)) eqn:R.
    + rewrite u64_id by lia. eexists; split; [reflexivity|]. split; [lia|].
      intros HP HS H1 H2. split; intros i Hi.
      * destruct (Z.eq_dec i lo); [subst; lia|]. apply H1; lia.
      * apply H2; lia.
    + eexists; split; [reflexivity|]. split; [lia|].
      intros HP HS H1 H2. split; intros i Hi.
      * apply H1; lia.
      * destruct (Z.eq_dec i lo); [subst; lia|]. apply H2; lia.
  - assert (Hcl : c < lo) by lia.
    set (r := cmp o (znth [] xs c)).
    destruct (r <? 0) eqn:R1; [|destruct (0 <? r) eqn:R2].
    + destruct (c =? 0) eqn:C0.
      * (* lo = 0 *) assert (hi = 0) by lia. subst hi.
        change (0 <? 0) with false; cbv iota.
        destruct (IH 0 0 I HL) as [r' [-> [Hr HR]]]; try lia.
        eexists; split; [reflexivity|]. split; [lia|].
        intros HP HS H1 H2. apply HR; auto. intros i Hi.
        assert (cmp (znth [] xs c) (znth [] xs i) <= 0) by (apply HS; lia).
        destruct HP as [Ha Ht]. apply (Ht _ (znth [] xs c)); [subst r; lia|assumption].
      * rewrite (u64_id (c - 1)) by lia.
        assert (HQ : exists hi', (if c - 1 <? hi then c - 1 else hi) = hi' /\ 0 <= hi' <= hi /\ hi' <= c - 1 /\ (hi' = hi \/ hi' = c - 1)).
        { destruct (c - 1 <? hi) eqn:?; eexists; split; try reflexivity; lia. }
        destruct HQ as [hi' [-> HQ]].
        destruct (IH hi' (c - 1) I HL) as [r' [-> [Hr HR]]]; try lia.
        eexists; split; [reflexivity|]. split; [lia|].
        intros HP HS H1 H2. apply HR; auto.
        -- intros i Hi. apply H1. lia.
        -- intros i Hi.
           assert (cmp (znth [] xs c) (znth [] xs i) <= 0) by (apply HS; lia).
           destruct HP as [Ha Ht]. apply (Ht _ (znth [] xs c)); [subst r; lia|assumption].
    + rewrite (u64_id (c + 1)) by lia. replace (lo <? c + 1) with false by lia.
      destruct (IH (c + 1) lo I HL) as [r' [-> [Hr HR]]]; try lia.
      eexists; split; [reflexivity|]. split; [lia|].
      intros HP HS H1 H2. apply HR; auto.
      intros i Hi.
      assert (cmp (znth [] xs i) (znth [] xs c) <= 0) by (apply HS; lia).
      destruct HP as [Ha Ht]. destruct (Z_lt_le_dec (cmp o (znth [] xs i)) 0) as [Hl|]; [|lia].
      assert (cmp o (znth [] xs c) <= 0) by (apply (Ht _ (znth [] xs i)); lia). subst r. lia.
    + replace (c <? c) with false by lia.
      destruct (IH c c I HL) as [r' [-> [Hr HR]]]; try lia.
      eexists; split; [reflexivity|]. split; [lia|].
      intros HP HS H1 H2. apply HR; auto.
      * intros i Hi.
        assert (cmp (znth [] xs i) (znth [] xs c) <= 0) by (apply HS; lia).
        destruct HP as [Ha Ht]. 
        assert (cmp (znth [] xs i) o <= 0).
        { apply (Ht _ (znth [] xs c)); [lia|].
          destruct (Z_le_gt_dec (cmp (znth [] xs c) o) 0); [assumption|].
          assert (cmp o (znth [] xs c) < 0) by (apply Ha; lia). subst r; lia. }
        destruct (Z_lt_le_dec (cmp o (znth [] xs i)) 0) as [Hl|]; [|lia].
        assert (0 < cmp (znth [] xs i) o) by (apply Ha; lia). lia.
      * intros i Hi.
        assert (cmp (znth [] xs c) (znth [] xs i) <= 0) by (apply HS; lia).
        destruct HP as [Ha Ht]. apply (Ht _ (znth [] xs c)); [subst r; lia|assumption].
Qed.

Lemma insert_sorted_ok cmp lim al l xs o :
  Inv lim l xs -> zlen xs + bits l <= lim -> lim * isz l < 2 ^ 64 -> zlen o = isz l ->
  exists r l', sblist_insert_sorted al cmp l o = Ret (r, l') /\
    (r = SIZE_MAX /\ l' = l /\ mem_ok al = false \/
     exists p q, xs = p ++ q /\ r = zlen p /\ Inv lim l' (p ++ o :: q) /\
       isz l' = isz l /\ bits l' = bits l /\
       (total_preorder cmp -> sorted cmp xs -> sorted cmp (p ++ o :: q))).
Proof.
  intros I HB HL Ho. unfold sblist_insert_sorted. pose proof (i_cnt _ _ _ I) as Hc. zpos.
  assert (HX : zlen xs < 2 ^ 64).
  { pose proof I as I'. dinv I'. clear - Hisz Hbits Hcnt Hcapa Hlim HL Zn. nia. }
  assert (exists pos, (if cnt l =? 0 then Ret 0
              else sorted_pos_loop (S (Z.to_nat (cnt l))) cmp l o 0 (u64 (cnt l - 1))) = Ret pos /\
          0 <= pos <= zlen xs /\ (total_preorder cmp -> sorted cmp xs ->
            (forall i, 0 <= i < pos -> 0 <= cmp o (znth [] xs i)) /\
            (forall i, pos <= i < zlen xs -> cmp o (znth [] xs i) <= 0))) as [pos [-> [Hpos HP]]].
  { destruct (cnt l =? 0) eqn:E.
    - eexists; split; [reflexivity|]. split; [lia|]. intros; split; intros; lia.
    - rewrite u64_id by lia.
      destruct (sorted_pos_ok cmp lim l xs o (S (Z.to_nat (cnt l))) 0 (cnt l - 1)) as [r [-> [Hr HR]]];
        auto; try lia.
      eexists; split; [reflexivity|]. split; [lia|]. intros HP HS; apply HR; auto; intros; lia. }
  cbn [bind]. destruct (zsplit pos xs) as [p [q [-> Hp]]]; [lia|].
  destruct (insert_ok lim al l p q o pos I HB HL Ho) as [r [l' [-> [[-> [-> Hm]]|[-> [I' [Hi Hb]]]]]]];
    [lia| |]; cbn; do 2 eexists; (split; [reflexivity|]).
  - left; auto.
  - right. exists p, q. repeat split; try assumption; try apply I'; try lia.
    intros HT HS. specialize (HP HT HS) as [H1 H2]. apply sorted_insert; auto.
    + intros x Hx. destruct (In_znth [] _ _ Hx) as [i [Hi' <-]].
      specialize (H1 i ltac:(lia)). rewrite znth_app1 in H1 by lia.
      destruct HT as [Ha Ht]. destruct (Z_le_gt_dec (cmp (znth [] p i) o) 0); [assumption|].
      assert (cmp o (znth [] p i) < 0) by (apply Ha; lia). lia.
    + intros x Hx. destruct (In_znth [] _ _ Hx) as [i [Hi' <-]].
      specialize (H2 (zlen p + i) ltac:(zlia)). rewrite znth_app2 in H2 by lia.
      now replace (zlen p + i - zlen p) with i in H2 by lia.
Qed.

Lemma spec_run_length xs rs xs' : spec_run xs rs xs' -> zlen xs' <= zlen xs + zlen rs.
Proof.
  induction 1 as [|l b o r l' h l'' HS HR IH]; [zlia|].
  assert (zlen l' <= zlen l + 1) by (inversion HS; zlia). zlia.
Qed.

(** iteration *)
Lemma iter_loop_ok lim l fuel : forall p q,
  Inv lim l (p ++ q) -> lim * isz l < 2 ^ 64 -> zlen q < Z.of_nat fuel ->
  iter_loop fuel l (zlen p) = Ret q.
Proof.
  induction fuel as [|fuel IH]; intros p q I HL Hf; [zlia|].
  cbn [iter_loop]. pose proof (i_cnt _ _ _ I) as Hc. zl.
  assert (HX : zlen p + zlen q < 2 ^ 64).
  { pose proof I as I'. dinv I'. zl. zpos. clear - Hisz Hbits Hcnt Hcapa Hlim HL Zn Zn0. nia. }
  destruct q as [|x q].
  - zl. now replace (zlen p <? cnt l) with false by lia.
  - zl. zpos. replace (zlen p <? cnt l) with true by lia.
    destruct (get_ok _ _ _ _ _ I HL) as [-> ->]. cbn [bind].
    rewrite u64_id by lia.
    specialize (IH (p ++ [x]) q). rewrite <- app_assoc in IH. cbn [app] in IH. zl.
    replace (zlen p + 1) with (zlen p + (1 + 0)) by lia.
    rewrite IH; auto. lia.
Qed.

Lemma iter_del_loop_ok {S} (dec : S -> list Z -> bool * S) lim fuel : forall l s p q,
  Inv lim l (p ++ q) -> lim * isz l < 2 ^ 64 -> zlen (p ++ q) < 2 ^ 63 -> zlen q < Z.of_nat fuel ->
  exists l', iter_del_loop fuel dec s l (zlen p) = Ret (q, l', dec_end dec s q) /\
    Inv lim l' (p ++ kept dec s q) /\ isz l' = isz l.
Proof.
  induction fuel as [|fuel IH]; intros l s p q I HL HL2 Hf; [zlia|].
  cbn [iter_del_loop]. pose proof (i_cnt _ _ _ I) as Hc. pose proof (i_capa _ _ _ I). pose proof (i_lim _ _ _ I). zl. zpos.
  rewrite s64_id by lia. rewrite u64_id by lia.
  destruct q as [|x q].
  - zl. replace (zlen p <? cnt l) with false by lia. eexists; split; [reflexivity|].
    cbn [kept]. auto.
  - zl. zpos. replace (zlen p <? cnt l) with true by lia.
    destruct (get_ok _ _ _ _ _ I HL) as [-> ->]. cbn [bind kept dec_end].
    destruct (dec s x) as [d s'] eqn:D. cbn [snd]. destruct d.
    + destruct (delete_ok _ _ _ _ _ I HL) as [l1 [-> [I1 [Hi [Hb _]]]]]. cbn [bind].
      replace (zlen p - 1 + 1) with (zlen p) by lia.
      destruct (IH l1 s' p q I1) as [l' [-> [I' Hi']]]; [rewrite Hi; auto|zlia|lia|].
      cbn [bind]. eexists; split; [reflexivity|]. split; [exact I'|congruence].
    + cbn [bind]. specialize (IH l s' (p ++ [x]) q). rewrite <- !app_assoc in IH. cbn [app] in IH. zl.
      destruct (IH I HL ltac:(zlia)) as [l' [E [I' Hi']]]; [lia|].
      replace (zlen p + 1) with (zlen p + (1 + 0)) by lia. rewrite E. cbn [bind].
      eexists; split; [reflexivity|]. split; [exact I'|assumption].
Qed.

Lemma reads_as_unique l xs ys : reads_as l xs -> reads_as l ys -> xs = ys.
Proof.
  intros [C1 [R1 _]] [C2 [R2 _]]. apply (znth_ext []); [congruence|].
  intros i Hi. destruct (R1 i Hi) as [o1 [G1 Z1]]. destruct (R2 i ltac:(lia)) as [o2 [G2 Z2]].
  congruence.
Qed.

Lemma reachable_inv itemsize blockitems h l xs :
  reachable itemsize blockitems h l xs ->
  exists lim, Inv lim l xs /\ zlen xs + bits l <= lim /\ lim * isz l < 2 ^ 64 /\ isz l = itemsize.
Proof.
  intros [l0 [rs [E [Hi [Hb [HL [Hc [R HA]]]]]]]]. zpos.
  assert (isz l0 = itemsize /\ 1 <= bits l0 /\ forall lim, 0 <= lim -> Inv lim l0 []) as [E1 [E2 I]].
  { destruct Hb as [Hb|[-> Hb]].
    - destruct (init_ok itemsize blockitems Hi Hb) as [l' [E' [? [? ?]]]].
      rewrite E in E'; inversion E'; subst. split; [auto|split; [lia|auto]].
    - destruct (init0_ok itemsize ltac:(lia)) as [l' [E' [? [? ?]]]].
      rewrite E in E'; inversion E'; subst. split; [auto|split; [|auto]].
      match goal with HH : bits l' = _ |- _ => rewrite HH end. apply Z.div_le_lower_bound; lia. }
  set (lim := zlen h + 1 + bits l0) in *.
  destruct (run_ok h lim l0 []) as [rs' [l' [xs' [R' [S [I' [Hi' [Hb' Hm]]]]]]]];
    [apply I; lia|rewrite zlen_nil; lia|rewrite E1; lia|assumption|].
  rewrite R in R'; inversion R'; subst rs' l'. clear R'.
  assert (xs = xs').
  { eapply reads_as_unique; [exact HA|]. eapply inv_reads; eauto. rewrite Hi', E1; lia. }
  subst xs'. exists lim. split; [exact I'|]. repeat split; try congruence.
  - apply spec_run_length in S.
    assert (zlen rs = zlen h) by (rewrite <- (zlen_map fst rs), Hm, zlen_map; reflexivity).
    rewrite zlen_nil in S. lia.
Qed.

(** single-call statements over reachable states *)
Lemma insert_sorted_reach cmp al itemsize blockitems h l xs o :
  reachable itemsize blockitems h l xs -> zlen o = itemsize ->
  exists r l', sblist_insert_sorted al cmp l o = Ret (r, l') /\
    (r = SIZE_MAX /\ l' = l /\ al = None \/
     exists p q, xs = p ++ q /\ r = zlen p /\ reads_as l' (p ++ o :: q) /\
       (total_preorder cmp -> sorted cmp xs -> sorted cmp (p ++ o :: q))).
Proof.
  intros HR Ho. destruct (reachable_inv _ _ _ _ _ HR) as [lim [I [HB [HL Hi]]]].
  destruct (insert_sorted_ok cmp lim al l xs o I HB HL ltac:(lia)) as [r [l' [E [[-> [-> Hm]]|HC]]]].
  - do 2 eexists; split; [exact E|]. left. repeat split. now destruct al.
  - do 2 eexists; split; [exact E|]. right. destruct HC as [p [q [-> [-> [I' [Hi' [Hb' HS]]]]]]].
    exists p, q. repeat split; auto; eapply inv_reads; eauto; rewrite Hi'; lia.
Qed.

Lemma insert_sorted_r_eq {C} al (cmp : list Z -> list Z -> C -> Z) ctx l o :
  sblist_insert_sorted_r al cmp ctx l o = sblist_insert_sorted al (fun a b => cmp a b ctx) l o.
Proof. unfold sblist_insert_sorted_r, sblist_insert_sorted. now rewrite sorted_pos_r_loop_eq. Qed.

Lemma bsearch_r_eq {C} (cmp : list Z -> list Z -> C -> Z) ctx l o :
  sblist_bsearch_r cmp ctx l o = sblist_bsearch (fun a b => cmp a b ctx) l o.
Proof. unfold sblist_bsearch_r, sblist_bsearch. now rewrite bsearch_r_loop_eq. Qed.

Lemma bsearch_reach cmp itemsize blockitems h l xs it :
  reachable itemsize blockitems h l xs ->
  exists r, sblist_bsearch cmp l it = Ret r /\
    ((0 <= r < zlen xs /\ cmp it (znth [] xs r) = 0) \/
     (r = SIZE_MAX /\
      (total_preorder cmp -> sorted cmp xs -> forall x, In x xs -> cmp it x <> 0))).
Proof.
  intros HR. destruct (reachable_inv _ _ _ _ _ HR) as [lim [I [HB [HL Hi]]]].
  eapply bsearch_ok; eauto.
Qed.

Lemma iter_reach itemsize blockitems h l xs :
  reachable itemsize blockitems h l xs -> sblist_iter l = Ret xs.
Proof.
  intros HR. destruct (reachable_inv _ _ _ _ _ HR) as [lim [I [HB [HL Hi]]]].
  unfold sblist_iter. change 0 with (zlen (@nil item)). pose proof (i_cnt _ _ _ I).
  eapply iter_loop_ok; eauto. zlia.
Qed.

Lemma iter_del_reach {S} (dec : S -> item -> bool * S) s itemsize blockitems h l xs :
  reachable itemsize blockitems h l xs -> zlen xs < 2 ^ 63 ->
  exists l', sblist_iter_del dec s l = Ret (xs, l', dec_end dec s xs) /\
             reads_as l' (kept dec s xs).
Proof.
  intros HR HN. destruct (reachable_inv _ _ _ _ _ HR) as [lim [I [HB [HL Hi]]]].
  unfold sblist_iter_del. change 0 with (zlen (@nil item)). pose proof (i_cnt _ _ _ I).
  destruct (iter_del_loop_ok dec lim (Datatypes.S (Z.to_nat (cnt l))) l s [] xs I HL HN) as [l' [E [I' Hi']]].
  { zlia. }
  rewrite E. eexists; split; [reflexivity|]. eapply inv_reads; [exact I'|]. rewrite Hi'; lia.
Qed.

(** failed allocations leave the very same state *)
Lemma oom_reach itemsize blockitems h l xs x pos cmp :
  reachable itemsize blockitems h l xs -> zlen x = itemsize -> 0 <= pos <= zlen xs ->
  (sblist_add None l x = Ret (0, l) \/
   exists l', sblist_add None l x = Ret (1, l') /\ reads_as l' (xs ++ [x])) /\
  (sblist_addi None l x = Ret (SIZE_MAX, l) \/
   exists l', sblist_addi None l x = Ret (zlen xs, l') /\ reads_as l' (xs ++ [x])) /\
  (sblist_insert None l x pos = Ret (0, l) \/
   exists l', sblist_insert None l x pos = Ret (1, l') /\ reads_as l' (ztake pos xs ++ x :: zdrop pos xs)) /\
  (sblist_insert_sorted None cmp l x = Ret (SIZE_MAX, l) \/
   exists p q l', xs = p ++ q /\ sblist_insert_sorted None cmp l x = Ret (zlen p, l') /\
     reads_as l' (p ++ x :: q)).
Proof.
  intros HR Hx Hp. pose proof (reachable_inv _ _ _ _ _ HR) as [lim [I [HB [HL Hi]]]].
  assert (Hx' : zlen x = isz l) by lia.
  split; [|split; [|split]].
  - destruct (add_ok lim None l xs x I HB HL Hx') as [r [l' [-> [[-> [-> _]]|[-> [I' [Hi' _]]]]]]]; [left; auto|right].
    eexists; split; [reflexivity|]. eapply inv_reads; [exact I'|rewrite Hi'; lia].
  - destruct (addi_ok lim None l xs x I HB HL Hx') as [r [l' [-> [[-> [-> _]]|[-> [I' [Hi' _]]]]]]]; [left; auto|right].
    eexists; split; [reflexivity|]. eapply inv_reads; [exact I'|rewrite Hi'; lia].
  - rewrite <- (ztake_zdrop pos xs) in I, HB.
    destruct (insert_ok lim None l (ztake pos xs) (zdrop pos xs) x pos I HB HL Hx') as
      [r [l' [-> [[-> [-> _]]|[-> [I' [Hi' _]]]]]]]; [now rewrite zlen_ztake|left; auto|right].
    eexists; split; [reflexivity|]. eapply inv_reads; [exact I'|rewrite Hi'; lia].
  - destruct (insert_sorted_reach cmp None itemsize blockitems h l xs x HR Hx) as
      [r [l' [-> [[-> [-> _]]|[p [q [-> [-> [HA _]]]]]]]]]; [left; auto|right].
    exists p, q, l'. auto.
Qed.

(** new_from_data *)
Lemma chunks_spec n isz : forall data, 1 <= isz -> Z.of_nat n * isz <= zlen data ->
  sized isz (chunks n isz data) /\ zlen (chunks n isz data) = Z.of_nat n /\
  exists rest, data = concat (chunks n isz data) ++ rest.
Proof.
  induction n as [|n IH]; intros data Hi Hd.
  - cbn. repeat split; [constructor|]. exists data; reflexivity.
  - cbn [chunks concat]. destruct (IH (zdrop isz data)) as [S1 [L1 [rest R1]]]; auto.
    { rewrite zlen_zdrop by nia. nia. }
    repeat split.
    + apply sized_cons; split; [apply zlen_ztake; nia|auto].
    + zl. lia.
    + exists rest. rewrite <- app_assoc, <- R1. symmetry; apply ztake_zdrop.
Qed.

Lemma from_data_inv isz data n :
  1 <= isz -> 1 <= n -> 
  exists l, sblist_new_from_data isz data (zlen data) = Ret l /\
    Inv (zlen data / isz) (sblist_set_blockitems l n) (chunks (Z.to_nat (zlen data / isz)) isz data).
Proof.
  intros Hi Hn. unfold sblist_new_from_data. replace (isz =? 0) with false by lia.
  eexists; split; [reflexivity|]. pose proof (zlen_nonneg data) as HD.
  assert (0 <= zlen data / isz) by (apply Z.div_pos; lia).
  assert (zlen data / isz * isz <= zlen data) by (rewrite Z.mul_comm; apply Z.mul_div_le; lia).
  destruct (chunks_spec (Z.to_nat (zlen data / isz)) isz data) as [S1 [L1 [rest R1]]]; auto.
  { rewrite Z2Nat.id; auto. }
  rewrite Z2Nat.id in L1 by auto.
  constructor; cbn [M_sblist.isz bits cnt capa mem sblist_set_blockitems]; try assumption; try apply Z.le_refl.
  - now rewrite L1.
  - exists rest. split; [exact R1|]. pose proof (f_equal zlen R1) as R2. zl. rewrite (zlen_concat _ _ S1) in R2. lia.
Qed.

Lemma from_data_reads isz data :
  1 <= isz -> zlen data < 2 ^ 64 ->
  exists l, sblist_new_from_data isz data (zlen data) = Ret l /\
    reads_as l (chunks (Z.to_nat (zlen data / isz)) isz data).
Proof.
  intros Hi HL. destruct (from_data_inv isz data 1 Hi ltac:(lia)) as [l [E I]].
  exists l. split; [exact E|].
  assert (zlen data / isz * isz <= zlen data) by (rewrite Z.mul_comm; apply Z.mul_div_le; lia).
  pose proof (inv_reads _ _ _ I) as HA. unfold sblist_new_from_data in E.
  replace (isz =? 0) with false in E by lia. inversion E; subst l. cbn in HA.
  apply HA. lia.
Qed.

Lemma from_data_history isz data n h l :
  1 <= isz -> 1 <= n ->
  sblist_new_from_data isz data (zlen data) = Ret l ->
  (zlen data / isz + zlen h + n) * isz < 2 ^ 64 ->
  caller_ok (sblist_set_blockitems l n) h ->
  exists rs l' xs, run (sblist_set_blockitems l n) h = Ret (rs, l') /\
    spec_run (chunks (Z.to_nat (zlen data / isz)) isz data) rs xs /\ reads_as l' xs /\
    map fst rs = map (fun p => (mem_ok (fst p), snd p)) h.
Proof.
  intros Hi Hn E HL Hc. destruct (from_data_inv isz data n Hi Hn) as [l2 [E2 I]].
  rewrite E in E2; inversion E2; subst l2; clear E2.
  assert (Hs : M_sblist.isz l = isz).
  { unfold sblist_new_from_data in E. destruct (isz =? 0); inversion E; reflexivity. }
  pose proof (i_cnt _ _ _ I) as C. pose proof (i_capa _ _ _ I) as C2. pose proof (i_lim _ _ _ I) as C3.
  cbn in C, C2, C3. zpos.
  destruct (run_ok h (zlen data / isz + zlen h + n) (sblist_set_blockitems l n)
             (chunks (Z.to_nat (zlen data / isz)) isz data)) as [rs [l' [xs [R [S [I' [Hi' [Hb' Hm]]]]]]]].
  - eapply Inv_weaken; [|exact I]. lia.
  - cbn. lia.
  - cbn. rewrite Hs. lia.
  - exact Hc.
  - do 3 eexists; split; [exact R|]. split; [eassumption|]. split; [|assumption].
    eapply inv_reads; [exact I'|]. rewrite Hi'. cbn. rewrite Hs. lia.
Qed.

Lemma from_data_add_ub isz data x junk l :
  1 <= isz -> zlen data < 2 ^ 64 - 1 -> zlen x = isz ->
  sblist_new_from_data isz data (zlen data) = Ret l ->
  sblist_add (Some junk) l x = UB.
Proof.
  intros Hi HL Hx E. unfold sblist_new_from_data in E.
  replace (isz =? 0) with false in E by lia. inversion E; subst l; clear E.
  set (n := zlen data / isz) in *. pose proof (zlen_nonneg data).
  assert (0 <= n) by (apply Z.div_pos; lia).
  assert (n * isz <= zlen data) by (subst n; rewrite Z.mul_comm; apply Z.mul_div_le; lia).
  clearbody n.
  assert (n <= n * isz) by nia.
  unfold sblist_add, sblist_grow_if_needed. cbn [cnt capa bits M_sblist.isz mem].
  rewrite Z.eqb_refl. rewrite Z.add_0_r. rewrite (u64_id n) by lia.
  change (1 =? 0) with false. cbv iota. unfold inc_count, sblist_set. cbn [cnt capa bits M_sblist.isz mem].
  rewrite (u64_id (n + 1)) by lia. replace (n + 1 - 1) with n by lia. rewrite !(u64_id n) by lia.
  replace (n + 1 <=? n) with false by lia.
  unfold item_off. cbn [M_sblist.isz]. rewrite !(u64_id (n * isz)) by lia.
  rewrite zwrites_oob; [reflexivity|]. right. rewrite zlen_resized by lia. lia.
Qed.

(** free_values *)
Lemma free_values_addrs itemsize blockitems h l xs base :
  reachable itemsize blockitems h l xs ->
  sblist_free_values base l = map (fun i => base + Z.of_nat i * itemsize) (seq 0 (length xs)).
Proof.
  intros HR. destruct (reachable_inv _ _ _ _ _ HR) as [lim [I [HB [HL Hi]]]].
  unfold sblist_free_values. rewrite (i_cnt _ _ _ I). unfold zlen at 1. rewrite Nat2Z.id.
  apply map_ext_in. intros i Hin. apply in_seq in Hin.
  assert (Hz : 0 <= Z.of_nat i < zlen xs) by (unfold zlen; lia).
  rewrite (zsplit1 [] (Z.of_nat i) xs Hz) in I.
  destruct (get_ok _ _ _ _ _ I HL) as [G _]. rewrite zlen_ztake in G by lia. rewrite G. now rewrite Hi.
Qed.
