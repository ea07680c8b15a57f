(** C94: an item of a list passed back to the same list. *)
From Verif Require Import Base M_sblist S_sblist D_sblist P_sblist.
From Verif Require Import M_tglist S_tglist D_tglist M_alias P_alias P_alias2.

(** sblist_set with a pointer from sblist_get: right unless it is the item's own place *)
Theorem c94_sblist_set_partial :
  forall itemsize blockitems h l xs i off pos, reachable itemsize blockitems h l xs -> 0 <= i -> sblist_get l i = Some off -> 0 <= pos < zlen xs -> i <> pos ->
    exists l', sblist_set_own l off pos = Ret (1, l') /\ reads_as l' (ztake pos xs ++ znth [] xs i :: zdrop (pos + 1) xs).
Proof.
  intros * HR Hi Hg Hp Hne. pose proof (set_own_reach _ _ _ _ _ HR i off Hi Hg pos Hp) as H. now replace (i =? pos) with false in H by lia.
Qed.
Print Assumptions c94_sblist_set_partial.
Theorem c94_sblist_set_self_refuted :
  forall itemsize blockitems h l xs i off, reachable itemsize blockitems h l xs -> 0 <= i -> sblist_get l i = Some off -> sblist_set_own l off i = UB.
Proof.
  intros * HR Hi Hg. assert (Hp : 0 <= i < zlen xs) by (destruct (own_inv _ _ _ _ _ HR i off Hi Hg) as [lim [_ [_ [_ [H _]]]]]; exact H).
  pose proof (set_own_reach _ _ _ _ _ HR i off Hi Hg i Hp) as H. now rewrite Z.eqb_refl in H.
Qed.
Print Assumptions c94_sblist_set_self_refuted.
(** and a place beyond the end is refused, the list unchanged *)
Theorem c94_sblist_set_beyond :
  forall itemsize blockitems h l xs off pos, reachable itemsize blockitems h l xs -> zlen xs <= pos -> sblist_set_own l off pos = Ret (0, l).
Proof. intros * HR Hp. destruct HR as (l0 & rs & _ & _ & _ & _ & _ & _ & C & _). unfold sblist_set_own. now replace (cnt l <=? pos) with true by lia. Qed.
Print Assumptions c94_sblist_set_beyond.
(** sblist_add of an own item: right while there is room, undefined as soon as the block grows *)
Theorem c94_sblist_add_partial :
  forall itemsize blockitems h l xs i off al, reachable itemsize blockitems h l xs -> 0 <= i -> sblist_get l i = Some off -> cnt l < capa l ->
    exists l', sblist_add_own al l off = Ret (1, l') /\ reads_as l' (xs ++ [znth [] xs i]).
Proof.
  intros * HR Hi Hg Hc. pose proof (add_own_reach _ _ _ _ _ HR i off Hi Hg al) as H. now replace (cnt l <? capa l) with true in H by lia.
Qed.
Print Assumptions c94_sblist_add_partial.
Theorem c94_sblist_add_grows_refuted :
  forall itemsize blockitems h l xs i off junk, reachable itemsize blockitems h l xs -> 0 <= i -> sblist_get l i = Some off -> cnt l = capa l ->
    sblist_add_own (Some junk) l off = UB /\ sblist_add_own None l off = Ret (0, l).
Proof.
  intros * HR Hi Hg Hc. pose proof (add_own_reach _ _ _ _ _ HR i off Hi Hg) as H. replace (cnt l <? capa l) with false in H by lia.
  split; [exact (H (Some junk))|exact (H None)].
Qed.
Print Assumptions c94_sblist_add_grows_refuted.
(** sblist_insert of an own item: right only for items before pos and while there is room *)
Theorem c94_sblist_insert_partial :
  forall itemsize blockitems h l xs i off al pos, reachable itemsize blockitems h l xs -> 0 <= i -> sblist_get l i = Some off -> cnt l < capa l -> i < pos <= zlen xs ->
    exists l', sblist_insert_own al l off pos = Ret (1, l') /\ reads_as l' (ztake pos xs ++ znth [] xs i :: zdrop pos xs).
Proof.
  intros * HR Hi Hg Hc Hp. pose proof (insert_own_reach _ _ _ _ _ HR i off Hi Hg al pos ltac:(lia)) as H. replace (cnt l <? capa l) with true in H by lia.
  replace (i =? pos) with false in H by lia. now replace (i <? pos) with true in H by lia.
Qed.
Print Assumptions c94_sblist_insert_partial.
(** behind pos the item before it is inserted instead; at pos, or when the block grows, it is undefined *)
Theorem c94_sblist_insert_refuted :
  forall itemsize blockitems h l xs i off al pos, reachable itemsize blockitems h l xs -> 0 <= i -> sblist_get l i = Some off -> 0 <= pos <= i ->
    (cnt l < capa l -> pos < i -> exists l', sblist_insert_own al l off pos = Ret (1, l') /\ reads_as l' (ztake pos xs ++ znth [] xs (i - 1) :: zdrop pos xs)) /\
    (cnt l < capa l -> pos = i -> sblist_insert_own al l off pos = UB) /\
    (cnt l = capa l -> al <> None -> sblist_insert_own al l off pos = UB).
Proof.
  intros * HR Hi Hg Hp. assert (Hx : 0 <= i < zlen xs) by (destruct (own_inv _ _ _ _ _ HR i off Hi Hg) as [lim [_ [_ [_ [H _]]]]]; exact H).
  pose proof (insert_own_reach _ _ _ _ _ HR i off Hi Hg al pos ltac:(lia)) as H. split; [|split].
  - intros Hc Hlt. replace (cnt l <? capa l) with true in H by lia. replace (i =? pos) with false in H by lia. now replace (i <? pos) with false in H by lia.
  - intros Hc ->. replace (cnt l <? capa l) with true in H by lia. now rewrite Z.eqb_refl in H.
  - intros Hc Hn. replace (cnt l <? capa l) with false in H by lia. destruct al; [assumption|contradiction].
Qed.
Print Assumptions c94_sblist_insert_refuted.

(** tglist_add(l, tglist_get(l, i)): always right, growing or not *)
Theorem c94_tglist_add :
  forall A isz, 1 <= isz -> forall (h : list (talloc A * lop A)) rs l xs al i d,
    (2 * (zlen h + 1) + 4) * isz < 2 ^ 64 -> tcaller_ok isz tglist_init h -> trun isz tglist_init h = Ret (rs, l) -> treads l xs -> 0 <= i < zlen xs ->
    exists r l', tglist_add_own isz al l i = Ret (r, l') /\ ((r = 0 /\ l' = l /\ has_mem al = false) \/ (r = 1 /\ treads l' (xs ++ [znth d xs i]))).
Proof. intros A isz Hz h rs l xs al i d HB HC HR HX Hi. exact (tadd_own_reach isz Hz h rs l xs HB HC HR HX al i d Hi). Qed.
Print Assumptions c94_tglist_add.
(** tglist_insert(l, tglist_get(l, i), pos): right up to pos, off by one behind it *)
Theorem c94_tglist_insert_partial :
  forall A isz, 1 <= isz -> forall (h : list (talloc A * lop A)) rs l xs al i pos d,
    (2 * (zlen h + 1) + 4) * isz < 2 ^ 64 -> tcaller_ok isz tglist_init h -> trun isz tglist_init h = Ret (rs, l) -> treads l xs -> 0 <= i < zlen xs -> i <= pos <= zlen xs ->
    exists r l', tglist_insert_own isz al l i pos = Ret (r, l') /\
      ((r = 0 /\ l' = l /\ has_mem al = false) \/ (r = 1 /\ treads l' (ztake pos xs ++ znth d xs i :: zdrop pos xs))).
Proof.
  intros A isz Hz h rs l xs al i pos d HB HC HR HX Hi Hp. pose proof (tinsert_own_reach isz Hz h rs l xs HB HC HR HX al i pos d Hi ltac:(lia)) as H.
  now replace (i <=? pos) with true in H by lia.
Qed.
Print Assumptions c94_tglist_insert_partial.
Theorem c94_tglist_insert_behind_refuted :
  forall A isz, 1 <= isz -> forall (h : list (talloc A * lop A)) rs l xs al i pos d,
    (2 * (zlen h + 1) + 4) * isz < 2 ^ 64 -> tcaller_ok isz tglist_init h -> trun isz tglist_init h = Ret (rs, l) -> treads l xs -> 0 <= pos < i -> i < zlen xs -> has_mem al = true ->
    exists l', tglist_insert_own isz al l i pos = Ret (1, l') /\ treads l' (ztake pos xs ++ znth d xs (i - 1) :: zdrop pos xs).
Proof.
  intros A isz Hz h rs l xs al i pos d HB HC HR HX Hi Hp Ha. pose proof (tinsert_own_reach isz Hz h rs l xs HB HC HR HX al i pos d ltac:(lia) ltac:(lia)) as H.
  replace (i <=? pos) with false in H by lia. destruct H as [r [l' [-> [[_ [_ Hf]]|[-> H]]]]]; [congruence|]. eauto.
Qed.
Print Assumptions c94_tglist_insert_behind_refuted.

(** tgilist: always right, since stored values never move relative to each other *)
Theorem c94_tgilist_add :
  forall A im ksz isz, 1 <= ksz -> 1 <= isz -> forall (h : list ((talloc Z * talloc A) * lop A)) rs x xs ai av i d,
    zlen h < im -> (2 * (zlen h + 1) + 4) * ksz < 2 ^ 64 -> (2 * (zlen h + 1) + 4) * isz < 2 ^ 64 ->
    gcaller_ok im ksz isz tgilist_init h -> grun im ksz isz tgilist_init h = Ret (rs, x) -> greads x xs -> 0 <= i < zlen xs ->
    exists r x', tgilist_add_own im ksz isz ai av x i = Ret (r, x') /\
      ((r = 0 /\ greads x' xs /\ has_mem ai && has_mem av = false) \/ (r = 1 /\ greads x' (xs ++ [znth d xs i]))).
Proof. intros A im ksz isz Hk Hz h rs x xs ai av i d HM HB1 HB2 HC HR HX Hi. exact (gadd_own_reach im ksz isz Hk Hz h rs x xs HM HB1 HB2 HC HR HX ai av i d Hi). Qed.
Print Assumptions c94_tgilist_add.
Theorem c94_tgilist_insert :
  forall A im ksz isz, 1 <= ksz -> 1 <= isz -> forall (h : list ((talloc Z * talloc A) * lop A)) rs x xs ai av i pos d,
    zlen h < im -> (2 * (zlen h + 1) + 4) * ksz < 2 ^ 64 -> (2 * (zlen h + 1) + 4) * isz < 2 ^ 64 ->
    gcaller_ok im ksz isz tgilist_init h -> grun im ksz isz tgilist_init h = Ret (rs, x) -> greads x xs -> 0 <= i < zlen xs -> 0 <= pos <= zlen xs ->
    exists r x', tgilist_insert_own im ksz isz ai av x i pos = Ret (r, x') /\
      ((r = 0 /\ greads x' xs /\ has_mem ai && has_mem av = false) \/ (r = 1 /\ greads x' (ztake pos xs ++ znth d xs i :: zdrop pos xs))).
Proof. intros A im ksz isz Hk Hz h rs x xs ai av i pos d HM HB1 HB2 HC HR HX Hi Hp. exact (gins_own_reach im ksz isz Hk Hz h rs x xs HM HB1 HB2 HC HR HX ai av i pos d Hi Hp). Qed.
Print Assumptions c94_tgilist_insert.

(** the list 1 2 3 with room: inserting its last item at 0 puts 2 there *)
Example c94_ex_sblist :
  let al := Some (fun _ : Z => 0) in
  match sblist_init 1 4 with
  | Ret l0 => match run l0 [(al, Add [1]); (al, Add [2]); (al, Add [3])] with
    | Ret (_, l) => sblist_get l 2 = Some 2 /\ sblist_insert_own None l 2 0 = Ret (1, mkSbl 1 4 4 4 [2; 1; 2; 3]) /\ sblist_add_own None l 2 = Ret (1, mkSbl 1 4 4 4 [1; 2; 3; 3])
                    /\ sblist_set_own l 2 2 = UB /\ sblist_set_own l 2 0 = Ret (1, mkSbl 1 4 3 4 [3; 2; 3; 0])
    | _ => False end
  | _ => False end.
Proof. cbv. repeat split. Qed.
Example c94_ex_sblist_grow :
  let al := Some (fun _ : Z => 0) in
  match sblist_init 1 2 with
  | Ret l0 => match run l0 [(al, Add [1]); (al, Add [2])] with
    | Ret (_, l) => cnt l = capa l /\ sblist_get l 0 = Some 0 /\ sblist_add_own al l 0 = UB /\ sblist_add_own None l 0 = Ret (0, l) /\ sblist_insert_own al l 0 0 = UB
    | _ => False end
  | _ => False end.
Proof. cbv. repeat split. Qed.
(** four items fill a tglist: adding the first grows it *)
Example c94_ex_tglist :
  let al := Some (fun _ : Z => 0) in
  match trun 4 tglist_init [(al, LAdd 1); (al, LAdd 2); (al, LAdd 3); (al, LAdd 4)] with
  | Ret (_, l) => tglist_add_own 4 al l 0 = Ret (1, mkTg 5 8 [1; 2; 3; 4; 1; 0; 0; 0]) /\ tglist_insert_own 4 al l 2 0 = Ret (1, mkTg 5 8 [2; 1; 2; 3; 4; 0; 0; 0]) /\
                  tglist_insert_own 4 al l 1 1 = Ret (1, mkTg 5 8 [1; 2; 2; 3; 4; 0; 0; 0]) /\ tglist_insert_own 4 None l 1 1 = Ret (0, l)
  | _ => False end.
Proof. cbv. repeat split. Qed.
Example c94_ex_tgilist :
  let al := (Some (fun _ : Z => 0), Some (fun _ : Z => 0)) in
  match grun 256 1 4 tgilist_init [(al, LAdd 1); (al, LIns 2 0)] with
  | Ret (_, x) => tgilist_insert_own 256 1 4 (fst al) (snd al) x 1 0 = Ret (1, mkTgi (mkTg 3 4 [2; 1; 0; 0]) (mkTg 3 4 [1; 2; 1; 0]))
  | _ => False end.
Proof. reflexivity. Qed.
