(** Proofs about the stringptr file functions. *)
From Verif Require Import Base Bits Cstr M_stringptr M_fileparser M_spfile S_stringptr S_fileparser D_stringptr P_stringptr P_fileparser.

Lemma ztake_more {A} b w (t : list A) : 0 <= b -> 0 <= w -> ztake b t ++ ztake w (zdrop b t) = ztake (b + w) t.
Proof.
  intros Hb Hw. destruct (Z_le_gt_dec b (zlen t)).
  - destruct (zsplit b t) as (x & y & -> & <-); [lia|]. rewrite ztake_app_exact, zdrop_app_exact, ztake_app2 by lia. do 2 f_equal. lia.
  - rewrite zdrop_all, (ztake_all b), (ztake_all (b + w)) by lia. unfold ztake. now rewrite firstn_nil, app_nil_r.
Qed.
Lemma holds_part s t i n : holds s t -> 0 <= i -> 0 <= n -> i + n <= zlen t -> zreads (sb s) (so s + i) n = Ret (ztake n (zdrop i t)).
Proof.
  intros H Hi Hn L. destruct (zsplit i t) as (p & r & -> & <-); [lia|]. revert L. zl. intros L.
  destruct (zsplit n r) as (m & q & -> & <-); [lia|]. rewrite (holds_sub _ _ _ _ H). now rewrite zdrop_app_exact, ztake_app_exact.
Qed.
Lemma chunk_ok n : 0 < n -> 0 < chunk n <= n.
Proof. unfold chunk. destruct (65536 <? n) eqn:E; lia. Qed.

(** ---------- tofile ---------- *)
Lemma tofile_loop_prefix s t : holds s t -> forall ws bufpos, 0 <= bufpos <= zlen t ->
  tofile_loop ws s bufpos (ztake bufpos t) = Fuel \/
  exists r, tofile_loop ws s bufpos (ztake bufpos t) = Ret (r, ztake r t) /\ 0 <= r <= zlen t /\ (r = zlen t \/ In IoErr ws).
Proof.
  intros H. destruct (holds_size _ _ H) as [S B]. induction ws as [|w ws IH]; intros bufpos Hb; cbn [tofile_loop]; destruct (bufpos <? sz s) eqn:E.
  - now left.
  - right. exists bufpos. split; [reflexivity|]. split; [lia|]. left. lia.
  - destruct w as [k|].
    + pose proof (chunk_ok (sz s - bufpos) ltac:(lia)) as C. rewrite (holds_part s t) by (auto; lia). cbn [bind].
      unfold clamp. set (w := Z.max 0 (Z.min k (chunk (sz s - bufpos)))). assert (W : 0 <= w <= chunk (sz s - bufpos)) by lia.
      rewrite ztake_ztake, ztake_more by lia. destruct (IH (bufpos + w) ltac:(lia)) as [F|(r & R & H1 & H2)]; [now left|right].
      exists r. split; auto. split; auto. destruct H2; [auto|right; now right].
    + right. exists bufpos. split; [reflexivity|]. split; [lia|]. right. now left.
  - right. exists bufpos. split; [reflexivity|]. split; [lia|]. left. lia.
Qed.
Definition moves (x : io) : Prop := exists k, x = Xfer k /\ 1 <= k.
Lemma tofile_loop_all s t : holds s t -> forall ws bufpos, 0 <= bufpos <= zlen t -> Forall moves ws -> zlen t - bufpos <= zlen ws ->
  tofile_loop ws s bufpos (ztake bufpos t) = Ret (zlen t, t).
Proof.
  intros H. destruct (holds_size _ _ H) as [S B]. induction ws as [|w ws IH]; intros bufpos Hb F L; cbn [tofile_loop]; destruct (bufpos <? sz s) eqn:E.
  - exfalso. change (zlen (@nil io)) with 0 in L. lia.
  - replace bufpos with (zlen t) by lia. now rewrite ztake_all by lia.
  - apply Forall_cons_iff in F as [(k & -> & K) F]. revert L. zl. intros L.
    pose proof (chunk_ok (sz s - bufpos) ltac:(lia)) as C. rewrite (holds_part s t) by (auto; lia). cbn [bind].
    unfold clamp. set (w := Z.max 0 (Z.min k (chunk (sz s - bufpos)))). assert (W : 1 <= w <= chunk (sz s - bufpos)) by lia.
    rewrite ztake_ztake, ztake_more by lia. apply IH; auto; lia.
  - replace bufpos with (zlen t) by lia. now rewrite ztake_all by lia.
Qed.
Lemma tofile_stuck s t n : holds s t -> t <> [] -> stringptr_tofile true (repeat (Xfer 0) n) s = Fuel.
Proof.
  intros H Ne. destruct (holds_size _ _ H) as [S B]. assert (0 < zlen t) by (destruct t; [congruence|zl; zpos; lia]).
  unfold stringptr_tofile. induction n as [|n IH]; cbn [repeat tofile_loop]; replace (0 <? sz s) with true by lia; [reflexivity|].
  pose proof (chunk_ok (sz s - 0) ltac:(lia)) as C. rewrite (holds_part s t) by (auto; lia). cbn [bind].
  unfold clamp. replace (Z.max 0 (Z.min 0 (chunk (sz s - 0)))) with 0 by lia. rewrite ztake_0. cbn [app]. exact IH.
Qed.

(** ---------- fromfile ---------- *)
Lemma fromfile_loop_ok size content hd : zlen hd = 16 -> 0 <= size -> forall rs dn rest,
  dn = ztake (zlen dn) content -> zlen dn + zlen rest = size ->
  fromfile_loop rs size content (hd ++ dn ++ rest ++ [0]) 16 (zlen dn) = Fuel \/
  (fromfile_loop rs size content (hd ++ dn ++ rest ++ [0]) 16 (zlen dn) = Ret None /\ In IoErr rs) \/
  (size <= zlen content /\ fromfile_loop rs size content (hd ++ dn ++ rest ++ [0]) 16 (zlen dn) = Ret (Some (hd ++ ztake size content ++ [0]))).
Proof.
  intros Lh Hs. induction rs as [|x rs IH]; intros dn rest Hd L; cbn [fromfile_loop]; zpos; destruct (zlen dn <? size) eqn:E; auto.
  - right. right. assert (Q : zlen rest = 0) by lia. apply zlen_0 in Q. subst rest. cbn [app]. replace size with (zlen dn) by (revert L; zl; lia).
    split; [|now rewrite <- Hd]. rewrite Hd. rewrite zlen_ztake_min by lia. lia.
  - destruct x as [k|]; [|right; left; split; [reflexivity|now left]].
    pose proof (chunk_ok (size - zlen dn) ltac:(lia)) as C. unfold clamp. set (w := Z.max 0 (Z.min k (chunk (size - zlen dn)))).
    assert (W : 0 <= w <= zlen rest) by lia. clearbody w. set (d := ztake w (zdrop (zlen dn) content)).
    assert (Ld : zlen d <= w) by (unfold d; rewrite zlen_ztake_min; lia).
    destruct (zsplit (zlen d) rest) as (r1 & r2 & -> & L1); [zpos; lia|].
    replace (hd ++ dn ++ (r1 ++ r2) ++ [0]) with ((hd ++ dn) ++ r1 ++ (r2 ++ [0])) by (now rewrite <- !app_assoc).
    rewrite zwrites_at by (auto; zl; lia). cbn [bind].
    replace ((hd ++ dn) ++ d ++ r2 ++ [0]) with (hd ++ (dn ++ d) ++ r2 ++ [0]) by (now rewrite <- !app_assoc).
    replace (zlen dn + zlen d) with (zlen (dn ++ d)) by (zl; lia).
    assert (D : dn ++ d = ztake (zlen (dn ++ d)) content).
    { destruct (Z_le_gt_dec (zlen dn) (zlen content)) as [Q|Q].
      - rewrite Hd at 1. unfold d at 1. assert (Ed : ztake w (zdrop (zlen dn) content) = ztake (zlen d) (zdrop (zlen dn) content)).
        { unfold d. rewrite zlen_ztake_min by lia. destruct (Z_le_gt_dec w (zlen (zdrop (zlen dn) content))); [now rewrite Z.min_l|]. rewrite Z.min_r by lia. rewrite !ztake_all; auto; lia. }
        rewrite Ed, ztake_more by (zpos; lia). f_equal. zl. lia.
      - exfalso. rewrite Hd in Q. rewrite zlen_ztake_min in Q by lia. lia. }
    destruct (IH (dn ++ d) r2 D) as [F|[(F & I)|F]]; [revert L; zl; lia|now left| |now right; right].
    right. left. split; [exact F|now right].
  - right. right. assert (Q : zlen rest = 0) by lia. apply zlen_0 in Q. subst rest. cbn [app]. replace size with (zlen dn) by (revert L; zl; lia).
    split; [|now rewrite <- Hd]. rewrite Hd. rewrite zlen_ztake_min by lia. lia.
Qed.
Lemma fromfile_loop_done size content hd : zlen hd = 16 -> forall rs dn rest, Forall moves rs -> size <= zlen content ->
  zlen dn + zlen rest = size -> zlen rest <= zlen rs -> fromfile_loop rs size content (hd ++ dn ++ rest ++ [0]) 16 (zlen dn) <> Fuel.
Proof.
  intros Lh. induction rs as [|x rs IH]; intros dn rest F Hs L Lr; cbn [fromfile_loop]; zpos; destruct (zlen dn <? size) eqn:E; try congruence.
  - exfalso. change (zlen (@nil io)) with 0 in Lr. lia.
  - apply Forall_cons_iff in F as [(k & -> & K) F]. revert Lr. zl. intros Lr.
    pose proof (chunk_ok (size - zlen dn) ltac:(lia)) as C. unfold clamp. set (w := Z.max 0 (Z.min k (chunk (size - zlen dn)))).
    assert (W : 1 <= w <= zlen rest) by lia. clearbody w. set (d := ztake w (zdrop (zlen dn) content)).
    assert (Ld : zlen d = w) by (unfold d; rewrite zlen_ztake; [lia|rewrite zlen_zdrop; lia]).
    destruct (zsplit (zlen d) rest) as (r1 & r2 & -> & L1); [zpos; lia|].
    replace (hd ++ dn ++ (r1 ++ r2) ++ [0]) with ((hd ++ dn) ++ r1 ++ (r2 ++ [0])) by (now rewrite <- !app_assoc).
    rewrite zwrites_at by (auto; zl; lia). cbn [bind].
    replace ((hd ++ dn) ++ d ++ r2 ++ [0]) with (hd ++ (dn ++ d) ++ r2 ++ [0]) by (now rewrite <- !app_assoc).
    replace (zlen dn + zlen d) with (zlen (dn ++ d)) by (zl; lia). revert L. zl. intros L. replace (zlen dn + zlen d) with (zlen (dn ++ d)) by (zl; lia).
    apply IH; auto; zl; lia.
Qed.
Lemma fromfile_ok size opened mal rs content : 0 <= size < 2 ^ 64 - 17 ->
  stringptr_fromfile size opened mal rs content = Fuel \/
  stringptr_fromfile size opened mal rs content = Ret None /\ (size = 0 \/ opened = false \/ mal = None \/ In IoErr rs) \/
  exists r, stringptr_fromfile size opened mal rs content = Ret (Some r) /\ size <= zlen content /\ new_with r (ztake size content).
Proof.
  intros Hs. unfold stringptr_fromfile. destruct (size =? 0) eqn:E; [right; left; split; [auto|lia]|].
  destruct opened; cbn [negb]; [|right; left; auto]. destruct mal as [junk|]; [|right; left; auto].
  destruct (new_ok junk size) as (hd & body & L1 & L2 & EN); [lia|]. rewrite EN. cbn [bind sb so sz].
  destruct (fromfile_loop_ok size content hd L1 ltac:(lia) rs [] body) as [F|[(F & I)|(B & F)]]; [reflexivity|exact L2|..];
    cbn [app] in F; change (zlen (@nil Z)) with 0 in F; rewrite F; cbn [bind option_map]; [now left|right; left; split; auto|].
  right. right. eexists. split; [reflexivity|]. split; auto. exists hd. split; auto. f_equal. rewrite zlen_ztake; lia.
Qed.
Lemma fromfile_all junk rs content : content <> [] -> zlen content < 2 ^ 64 - 17 -> Forall moves rs -> zlen content <= zlen rs ->
  exists r, stringptr_fromfile (zlen content) true (Some junk) rs content = Ret (Some r) /\ new_with r content.
Proof.
  intros Ne L F Lr. assert (0 < zlen content) by (destruct content; [congruence|zl; zpos; lia]).
  destruct (fromfile_ok (zlen content) true (Some junk) rs content ltac:(lia)) as [X|[(X & [I|[I|[I|I]]])|(r & X & _ & N)]]; try (discriminate I); try lia.
  - exfalso. revert X. unfold stringptr_fromfile. replace (_ =? 0) with false by lia. cbn [negb].
    destruct (new_ok junk (zlen content)) as (hd & body & L1 & L2 & EN); [lia|]. rewrite EN. cbn [bind sb so sz].
    pose proof (fromfile_loop_done (zlen content) content hd L1 rs [] body F ltac:(lia) L2 ltac:(lia)) as D. cbn [app] in D. change (zlen (@nil Z)) with 0 in D.
    destruct (fromfile_loop _ _ _ _ _ _); cbn [bind]; congruence.
  - exfalso. rewrite Forall_forall in F. destruct (F _ I) as (k & E & _). discriminate.
  - exists r. rewrite ztake_all in N by lia. auto.
Qed.
(** the file is shorter than stat said *)
Lemma fromfile_short size junk rs content : zlen content < size < 2 ^ 64 - 17 -> ~ In IoErr rs ->
  stringptr_fromfile size true (Some junk) rs content = Fuel.
Proof.
  intros L NI. zpos. destruct (fromfile_ok size true (Some junk) rs content ltac:(lia)) as [X|[(X & [I|[I|[I|I]]])|(r & X & B & N)]]; auto; try (discriminate I); try lia. contradiction.
Qed.

(** ---------- stringptrlist_tofile / fromfile ---------- *)
Lemma spl_tofile_ok : forall l ts, Forall2 holds l ts -> forall ws file, length ws = (2 * length l)%nat -> Forall (fun w => exists k, w = Xfer k /\ 2 ^ 63 <= k) ws ->
  spl_tofile_loop l ws file = Ret (1, file ++ lines [10] ts).
Proof.
  unfold lines. induction 1 as [|s t l ts Hs _ IH]; intros ws file Lw Fw; cbn [spl_tofile_loop map concat]; [now rewrite app_nil_r|].
  destruct (holds_size _ _ Hs) as [S B]. destruct ws as [|w1 [|w2 ws]]; cbn in Lw; try lia.
  apply Forall_cons_iff in Fw as [(k1 & -> & K1) Fw]. apply Forall_cons_iff in Fw as [(k2 & -> & K2) Fw].
  rewrite (holds_reads _ _ Hs). cbn [bind]. unfold clamp. replace (Z.max 0 (Z.min k1 (sz s))) with (sz s) by lia. rewrite Z.eqb_refl. cbn [negb].
  replace (1 <=? k2) with true by lia. rewrite S, ztake_all by lia. rewrite IH by (auto; lia). now rewrite <- !app_assoc.
Qed.
Lemma spl_tofile_prefix : forall l ts, Forall2 holds l ts -> forall ws file, spl_tofile_loop l ws file = Fuel \/
  exists r q, (r = 1 /\ q = lines [10] ts \/ r = 0 /\ exists q2, lines [10] ts = q ++ q2) /\ spl_tofile_loop l ws file = Ret (r, file ++ q).
Proof.
  unfold lines. induction 1 as [|s t l ts Hs _ IH]; intros ws file; cbn [spl_tofile_loop map concat]; [right; exists 1, []; rewrite app_nil_r; auto|].
  destruct (holds_size _ _ Hs) as [S B]. destruct ws as [|[k|] ws]; auto; [|right; exists 0, []; rewrite app_nil_r; split; [right; split; [auto|eexists; reflexivity]|auto]].
  rewrite (holds_reads _ _ Hs). cbn [bind]. set (w := clamp k (sz s)). assert (W : 0 <= w <= sz s) by (unfold w, clamp; lia). clearbody w.
  destruct (w =? sz s) eqn:E; cbn [negb].
  - replace w with (zlen t) by lia. rewrite ztake_all by lia. destruct ws as [|[k2|] ws]; auto.
    + destruct (1 <=? k2) eqn:E2.
      * destruct (IH ws ((file ++ t) ++ [10])) as [F|(r & q & H & F)]; [auto|right]. rewrite F. exists r, ((t ++ [10]) ++ q).
        split; [|now rewrite <- !app_assoc]. destruct H as [[-> ->]|[-> (q2 & ->)]]; [left; auto|right; split; auto]. exists q2. now rewrite <- !app_assoc.
      * right. exists 0, t. split; [right; split; auto|auto]. eexists. rewrite <- app_assoc. reflexivity.
    + right. exists 0, t. split; [right; split; auto|auto]. eexists. rewrite <- app_assoc. reflexivity.
  - right. exists 0, (ztake w t). split; [right; split; auto|auto]. exists (zdrop w t ++ [10] ++ concat (map (fun t => t ++ [10]) ts)).
    rewrite app_assoc, ztake_zdrop. now rewrite <- app_assoc.
Qed.
Lemma spl_fromfile_ok : forall ts fuel mem p buf acc, at_rest p (lines [10] ts) -> Forall (fun t => no_lf t /\ 1 <= zlen t < 1024) ts ->
  (length ts < fuel)%nat -> length mem = length ts -> Forall (fun m => fst m <> None /\ snd m = true) mem -> zlen buf = 1024 ->
  spl_fromfile_loop fuel mem p buf acc = Ret (1, acc ++ map (fun t => mkSp (t ++ [0]) 0 (zlen t)) ts).
Proof.
  unfold lines. induction ts as [|t ts IH]; intros fuel mem p buf acc Hr Ft Hf Lm Fm Lb; (destruct fuel as [|fuel]; [lia|]); cbn [spl_fromfile_loop map concat] in *; unfold readline.
  - rewrite (readline_eof p buf 1024 Hr) by lia. cbn [bind]. change (-2 =? 0) with false. cbn [negb]. now rewrite app_nil_r.
  - apply Forall_cons_iff in Ft as [[Nt Bt] Ft]. rewrite <- app_assoc in Hr. cbn [app] in Hr.
    destruct (readline_lf p t _ buf [] 1024 Hr Nt Lb ltac:(lia)) as (p' & b' & E & L1 & FL & T & R' & _). rewrite !app_nil_r in E. rewrite E. cbn [bind Z.eqb negb].
    rewrite FL. replace (zlen t =? 0) with false by lia. destruct mem as [|[mal ok] mem]; [discriminate|].
    apply Forall_cons_iff in Fm as [[M1 M2] Fm]. cbn in M1, M2. subst ok. destruct mal as [junk|]; [|congruence].
    assert (Hd : holds (mkSp b' 0 (zlen t)) t).
    { destruct (zsplit (zlen t + 1) b') as (x & y & -> & Lx); [lia|]. rewrite <- Lx in T. rewrite ztake_app_exact in T. subst x.
      exists [], (0 :: y). split; [cbn; now rewrite <- app_assoc|]. split; [reflexivity|]. split; [reflexivity|]. cbn [sb]. lia. }
    rewrite (strdup_ok junk _ t Hd). cbn [bind]. rewrite IH; auto; [|cbn in Hf; lia]. now rewrite <- app_assoc.
Qed.
Lemma open_rest fd junk content : fd <> 0 -> zlen content < 2 ^ 63 -> at_rest (fileparser_open fd junk content) content.
Proof. intros H L. split; [exact H|]. split; [exact L|]. split; [exists []; auto|reflexivity]. Qed.

(** ---------- dup_entries ---------- *)
Lemma dup_ok : forall l ts, Forall2 holds l ts -> forall mem i, length mem = length l -> Forall (fun m => m <> None) mem ->
  dup_loop mem i l = Ret (-1, map (fun t => mkSp (t ++ [0]) 0 (zlen t)) ts).
Proof.
  induction 1 as [|s t l ts Hs _ IH]; intros mem i L F; cbn [dup_loop map]; [reflexivity|]. destruct mem as [|[junk|] mem]; [discriminate| |apply Forall_inv in F; congruence].
  apply Forall_cons_iff in F as [_ F]. rewrite (strdup_ok junk _ t Hs). cbn [bind]. rewrite IH by (auto; cbn in L; lia). cbn [bind]. destruct (holds_size _ _ Hs) as [-> _]. reflexivity.
Qed.
Lemma dup_fails : forall l1 ts, Forall2 holds l1 ts -> forall mem i s l2 m2, length mem = length l1 -> Forall (fun m => m <> None) mem ->
  dup_loop (mem ++ None :: m2) i (l1 ++ s :: l2) = Ret (i + zlen l1, map (fun t => mkSp (t ++ [0]) 0 (zlen t)) ts ++ s :: l2).
Proof.
  induction 1 as [|s0 t l ts Hs _ IH]; intros mem i s l2 m2 L F.
  - destruct mem; [|discriminate]. cbn. do 2 f_equal. lia.
  - destruct mem as [|[junk|] mem]; [discriminate| |apply Forall_inv in F; congruence].
    apply Forall_cons_iff in F as [_ F]. cbn [app dup_loop map]. rewrite (strdup_ok junk _ t Hs). cbn [bind]. rewrite IH by (auto; cbn in L; lia). cbn [bind].
    destruct (holds_size _ _ Hs) as [-> _]. do 2 f_equal. zl. lia.
Qed.

(** ---------- read_stdin_line ---------- *)
Lemma fgets_take_lf : forall l n r, no_lf l -> (length l < n)%nat -> fgets_take n (l ++ 10 :: r) = l ++ [10].
Proof.
  induction l as [|c l IH]; intros n r N L; (destruct n as [|n]; [cbn in L; lia|]); cbn [app fgets_take]; [reflexivity|].
  destruct (c =? 10) eqn:E; [exfalso; apply N; left; lia|]. f_equal. apply IH; [intros I; apply N; now right|cbn in L; lia].
Qed.
Lemma fgets_take_no : forall l n, no_lf l -> fgets_take n l = firstn n l.
Proof.
  induction l as [|c l IH]; intros n N; destruct n as [|n]; cbn [fgets_take firstn]; auto.
  destruct (c =? 10) eqn:E; [exfalso; apply N; left; lia|]. f_equal. apply IH. intros I; apply N; now right.
Qed.
Lemma fgets_take_long : forall l n r, no_lf l -> length l = n -> fgets_take n (l ++ r) = l.
Proof.
  induction l as [|c l IH]; intros n r N <-; cbn [app length fgets_take]; auto.
  destruct (c =? 10) eqn:E; [exfalso; apply N; left; lia|]. f_equal. apply IH; auto. intros I; apply N; now right.
Qed.
(** the line read, the text after chomp *)
Lemma stdin_line b g n chomp input d a x : zlen b = n -> fgets_take (Z.to_nat (n - 1)) input = d -> d = a ++ [x] -> nz d -> zlen d < n ->
  exists b', read_stdin_line (b ++ g) n chomp input = Ret (Some (mkSp (b' ++ g) 0 (if chomp =? 0 then zlen d else zlen a)), zdrop (zlen d) input) /\
    zlen b' = n /\ ztake (if chomp =? 0 then zlen d + 1 else zlen a + 1) b' = (if chomp =? 0 then d else a) ++ [0].
Proof.
  intros Lb Hd Ha Nz Ld. zpos. destruct (zsplit (zlen d + 1) b) as (b1 & b2 & -> & L1); [lia|].
  assert (FG : fgets ((b1 ++ b2) ++ g) n input = Ret (Some (d ++ 0 :: b2 ++ g), zdrop (zlen d) input)).
  { unfold fgets. rewrite Hd. rewrite <- app_assoc. pose proof (zwrites_at [] b1 (b2 ++ g) (d ++ [0]) 0 eq_refl ltac:(zl; lia)) as W. cbn [app] in W. rewrite W. cbn [bind].
    destruct input; [|now rewrite <- app_assoc]. exfalso. revert Hd. destruct (Z.to_nat (n - 1)); cbn; intros <-; destruct a; discriminate. }
  unfold read_stdin_line. rewrite FG. cbn [bind].
  rewrite strlen_0 by auto. cbn [bind]. destruct (chomp =? 0).
  - exists (d ++ 0 :: b2). split; [now rewrite <- app_assoc|]. split; [revert Lb; zl; lia|].
    change (d ++ 0 :: b2) with (d ++ [0] ++ b2). rewrite app_assoc. replace (zlen d + 1) with (zlen (d ++ [0])) by (zl; lia). apply ztake_app_exact.
  - pose proof (shiftleft_ok (mkSp (d ++ 0 :: b2 ++ g) 0 (zlen d)) [] a x (0 :: b2 ++ g)) as SL. cbn [sb so sz app] in SL.
    assert (Dl : zlen d = zlen a + 1) by (rewrite Ha; zl; lia). replace (zlen d - zlen a) with 1 in SL by lia.
    rewrite SL; [|rewrite Ha; now rewrite <- app_assoc|reflexivity|lia]. cbn [bind]. exists (a ++ 0 :: 0 :: b2). split; [now rewrite <- app_assoc|].
    split; [revert Lb; zl; lia|]. change (a ++ 0 :: 0 :: b2) with (a ++ [0] ++ 0 :: b2). rewrite app_assoc. replace (zlen a + 1) with (zlen (a ++ [0])) by (zl; lia). apply ztake_app_exact.
Qed.
