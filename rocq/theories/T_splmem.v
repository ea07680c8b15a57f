(** C119: splitting and replacing when the list of pieces cannot grow. *)
From Verif Require Import Base Bits Cstr M_stringptr M_spl M_splmem S_stringptr S_splmem D_stringptr P_stringptr P_spl P_splmem.

(** the buffer is cut as always; the list has the entries that found room, each with its place *)
Theorem c119_splitc sc buf pre t z post d : holds_in buf pre t (z :: post) -> bytes t -> byte d ->
  exists ps sc' l, ps <> [] /\ join [d] ps = t /\ Forall (Forall (fun c => c <> d)) ps /\
    splitc_mem (true :: sc) buf (s8 d) = Ret (sc', Some l, mkSp (pre ++ join [0] ps ++ 0 :: post) (zlen pre) (zlen t)) /\
    kept sc (places (zlen pre) 1 ps) (pitems l).
Proof.
  intros H Bt Bd. destruct (splitc_ok buf pre t z post d H Bt Bd) as (ps & N & J & F & R). destruct (splitc_mem_ok sc _ _ _ _ R) as (sc' & l & E & K). exists ps, sc', l. auto 6.
Qed.
Theorem c119_splits fuel sc buf pre t z post delim d : holds_in buf pre t (z :: post) -> holds delim d -> d <> [] -> (S (length t) < fuel)%nat ->
  exists ps sc' l, cut d t ps /\
    splits_mem fuel (true :: sc) buf delim = Ret (sc', Some l, mkSp (pre ++ join (0 :: tl d) ps ++ 0 :: post) (zlen pre) (zlen t)) /\
    kept sc (places (zlen pre) (zlen d) ps) (pitems l).
Proof.
  intros H Hd Nd Hf. destruct (splits_ok _ _ _ _ _ _ _ fuel H Hd Nd Hf) as (ps & C & R). destruct (splits_mem_ok fuel sc _ _ _ _ R) as (sc' & l & E & K). exists ps, sc', l. auto.
Qed.
(** no list at all: nothing is touched *)
Theorem c119_no_list fuel sc mal buf d delim what whit :
  splitc_mem (false :: sc) buf d = Ret (sc, None, buf) /\ splits_mem fuel (false :: sc) buf delim = Ret (sc, None, buf) /\ replace_mem fuel (false :: sc) mal buf what whit = Ret (None, buf).
Proof. repeat split. Qed.
(** what is stored keeps its order, is everything if every request is granted, and at least what the first k granted
    requests have room for *)
Theorem c119_kept {A} sc (xs ys : list A) : kept sc xs ys ->
  part xs ys /\ (Forall (eq true) sc -> ys = xs) /\ (forall k sc', sc = repeat true k ++ sc' -> exists r, ys = ztake (16 * Z.of_nat k) xs ++ r).
Proof.
  intros K. split; [now apply (kept_part sc)|]. split; [intros F; symmetry; now apply (kept_true sc)|].
  induction K; intros k sc' E.
  - exists []. unfold ztake. rewrite firstn_nil. reflexivity.
  - destruct k; [|discriminate]. exists ys. reflexivity.
  - destruct k; [exists b; reflexivity|]. exists []. rewrite app_nil_r. symmetry. unfold ztake. apply firstn_all2. unfold zlen in H. lia.
  - destruct k; [exists (b ++ ys); reflexivity|]. injection E as E. destruct (IHK k sc' E) as (r & ->). exists r. rewrite app_assoc. f_equal.
    unfold ztake. rewrite firstn_app. unfold zlen in H. rewrite (firstn_all2 b) by lia. f_equal. f_equal. lia.
  - exists (zdrop (16 * Z.of_nat k) xs). symmetry. apply ztake_zdrop.
Qed.
(** a piece is lost, and nothing reports it, as soon as a request that is needed is refused *)
Theorem c119_lost_refuted {A} k sc (xs ys : list A) : kept (repeat true k ++ false :: sc) xs ys -> 16 * Z.of_nat k < zlen xs -> zlen ys < zlen xs.
Proof.
  assert (G : forall sc (xs ys : list A), kept sc xs ys -> zlen ys <= zlen xs).
  { intros sc0 xs0 ys0 K. induction K; zl; lia. }
  revert xs ys. induction k as [|k IH]; cbn [repeat app]; intros xs ys K L; inversion K; subst.
  - cbn in L. lia.
  - match goal with H : kept sc _ _ |- _ => apply G in H end. zl. lia.
  - cbn in L. lia.
  - lia.
  - match goal with H : kept _ xs0 ys0 |- _ => apply IH in H; [zl; lia|revert L; zl; lia] end.
Qed.
Lemma u64_plus x : exists k, u64 x = x + k * 2 ^ 64.
Proof. exists (- (x / 2 ^ 64)). unfold u64. rewrite Z.mod_eq by lia. lia. Qed.
Lemma u64_neg n : -17 <= n < 0 -> u64 n = 2 ^ 64 + n.
Proof. intros H. unfold u64. symmetry. apply (Z.mod_unique n (2 ^ 64) (-1)); lia. Qed.
Lemma new_wraps junk s : 2 ^ 64 - 17 <= s < 2 ^ 64 -> stringptr_new (Some junk) s = UB.
Proof.
  intros H. cbn [stringptr_new]. assert (V : u64 (16 + s + 1) = 17 + s - 2 ^ 64) by (unfold u64; symmetry; apply (Z.mod_unique _ (2 ^ 64) 1); lia).
  rewrite V. rewrite zwrite_oob; [reflexivity|]. right. rewrite zlen_block by lia. lia.
Qed.
(** the replacement: the stored pieces joined, then the bytes malloc left there, as many as the lost pieces and their
    separators had *)
Theorem c119_replace fuel sc junk buf pre t z post what wt whit rt : holds_in buf pre t (z :: post) -> holds what wt -> wt <> [] -> holds whit rt ->
  (S (length t) < fuel)%nat -> (forall ps, cut wt t ps -> zlen (join rt ps) < 2 ^ 64 - 17) ->
  exists ps ks, cut wt t ps /\ kept sc ps ks /\
    (ks <> [] -> exists r rest, replace_mem fuel (true :: sc) (Some junk) buf what whit = Ret (Some r, mkSp (pre ++ join (0 :: tl wt) ps ++ 0 :: post) (zlen pre) (zlen t)) /\
       new_with r (join rt ks ++ rest) /\ zlen rest = zlen (concat ps) - zlen (concat ks) + (zlen ps - zlen ks) * zlen wt /\
       (forall i, 0 <= i < zlen rest -> znth 0 rest i = junk (16 + zlen (join rt ks) + i))) /\
    (ks = [] -> let n := zlen t + zlen wt - zlen rt in
       (0 <= n < 2 ^ 64 - 17 -> exists r rest, replace_mem fuel (true :: sc) (Some junk) buf what whit = Ret (Some r, mkSp (pre ++ join (0 :: tl wt) ps ++ 0 :: post) (zlen pre) (zlen t)) /\
          new_with r rest /\ zlen rest = n /\ (forall i, 0 <= i < n -> znth 0 rest i = junk (16 + i))) /\
       (-17 <= n < 0 -> replace_mem fuel (true :: sc) (Some junk) buf what whit = UB)).
Proof.
  intros Hb Hw Nw Hr Hf Big. destruct (splits_ok _ _ _ _ _ _ _ _ Hb Hw Nw Hf) as (ps & C & E). destruct (splits_mem_ok fuel sc _ _ _ _ E) as (sc' & l & EM & K).
  destruct (holds_size _ _ Hw) as [Sw Bw]. destruct (holds_size _ _ Hr) as [Sr Br]. specialize (Big _ C).
  rewrite <- placed_fst in K. destruct (kept_map fst _ _ _ K _ eq_refl) as (qs & KQ & PI). pose proof (kept_part _ _ _ KQ) as PQ.
  assert (KS : kept sc ps (map snd qs)).
  { rewrite <- (placed_snd (zlen wt) ps (zlen pre)). clear -KQ. remember (placed _ _ _) as xs. clear -KQ. induction KQ; cbn [map]; rewrite ?map_app; try constructor; auto; unfold zlen in *; now rewrite map_length. }
  assert (RD : Forall (reads_as (pre ++ join (0 :: tl wt) ps ++ 0 :: post)) qs).
  { apply (part_Forall _ _ _ PQ). replace (zlen wt) with (zlen (0 :: tl wt)) by (destruct wt; [congruence|reflexivity]). apply placed_reads. }
  set (ks := map snd qs) in *. exists ps, ks. split; [auto|]. split; [auto|].
  assert (NP := cut_nonempty _ _ _ C). destruct (cut_count _ _ _ C) as [C1 C2]. pose proof (zlen_join rt ps NP) as LJ.
  destruct (part_concat _ _ (kept_part _ _ _ KS)) as [Q1 Q2]. assert (W1 : 1 <= zlen wt) by (destruct wt; [congruence|zl; zpos; lia]).
  assert (T : zlen t < 2 ^ 63). { destruct Hb as (E0 & _ & _ & L). rewrite E0 in L. revert L. zl. zpos. lia. }
  assert (Lq : zlen (map fst qs) = zlen ks) by (unfold ks, zlen; now rewrite !map_length).
  unfold replace_mem. rewrite EM. cbn [bind sb sz]. rewrite PI, Lq, Sw, Sr. split.
  - intros NK. pose proof (zlen_join rt ks NK) as LK. assert (P1 : 1 <= zlen ks) by (destruct ks; [congruence|zl; zpos; lia]).
    assert (M1 : 0 <= (zlen ks - 1) * zlen wt <= (zlen ps - 1) * zlen wt) by (zpos; nia).
    assert (M2 : 0 <= (zlen ks - 1) * zlen rt <= (zlen ps - 1) * zlen rt) by (zpos; nia).
    set (size := zlen t - (zlen ks - 1) * zlen wt + (zlen ks - 1) * zlen rt).
    assert (B : 0 <= size < 2 ^ 64 - 17).
    { unfold size. split; [zpos; lia|]. destruct (Z_le_gt_dec (zlen rt) (zlen wt)) as [G|G]; [nia|].
      assert ((zlen ks - 1) * (zlen rt - zlen wt) <= (zlen ps - 1) * (zlen rt - zlen wt)) by nia. zpos. lia. }
    assert (P0 : 0 <= (zlen ps - 1) * zlen wt) by lia.
    assert (PS : zlen ps < 2 ^ 64) by (zpos; nia).
    zpos. rewrite (u64_id (zlen ks - 1)) by lia. rewrite (u64_id ((zlen ks - 1) * zlen wt)) by lia. rewrite (u64_id ((zlen ks - 1) * zlen rt)) by lia. rewrite (u64_id (_ - _)) by lia.
    fold size. rewrite u64_id by lia. destruct (new_junk junk size B) as (hd & body & L1 & L2 & EN & J). rewrite EN. cbn [bind sb so sz].
    assert (SZ : size = zlen (join rt ks) + (zlen (concat ps) - zlen (concat ks) + (zlen ps - zlen ks) * zlen wt)) by (unfold size; lia).
    assert (0 <= (zlen ps - zlen ks) * zlen wt) by nia.
    destruct (zsplit (zlen (join rt ks)) body) as (m & rest & EB & Lm); [zpos; lia|]. rewrite EB in *. revert L2. zl. intros L2. rewrite <- app_assoc.
    pose proof (replace_loop_gen (pre ++ join (0 :: tl wt) ps ++ 0 :: post) whit rt Hr qs hd m (rest ++ [0]) 16 0 RD Lm ltac:(lia) ltac:(lia) ltac:(lia)) as RG. rewrite RG. cbn [bind]. fold ks.
    eexists. exists rest. split; [reflexivity|]. split; [exists hd; split; [auto|]; f_equal; [now rewrite <- app_assoc|zl; lia]|]. split; [lia|].
    intros i Hi. rewrite <- (Z.add_assoc 16). rewrite <- J by (zpos; lia). rewrite znth_app2 by (zpos; lia). f_equal. lia.
  - intros EK. set (n := zlen t + zlen wt - zlen rt) in *. assert (EQ : qs = []) by (unfold ks in EK; destruct qs; [reflexivity|discriminate]). rewrite EK. change (zlen (@nil (list Z))) with 0. rewrite EQ. cbn [map].
    assert (SZ : u64 (u64 (zlen t - u64 (u64 (0 - 1) * zlen wt)) + u64 (u64 (0 - 1) * zlen rt)) = u64 n).
    { change (u64 (0 - 1)) with (2 ^ 64 - 1). destruct (u64_plus ((2 ^ 64 - 1) * zlen wt)) as (a & ->). destruct (u64_plus ((2 ^ 64 - 1) * zlen rt)) as (b & ->).
      destruct (u64_plus (zlen t - ((2 ^ 64 - 1) * zlen wt + a * 2 ^ 64))) as (c & ->). unfold u64.
      replace (_ + _) with (n + (c - a + b - zlen wt + zlen rt) * 2 ^ 64) by (unfold n; lia). apply Z_mod_plus_full. }
    rewrite SZ. split.
    + intros N0. rewrite u64_id by lia. destruct (new_junk junk n) as (hd & body & L1 & L2 & EN & J); [lia|]. rewrite EN. cbn [bind sb so sz replace_loop].
      eexists. exists body. split; [reflexivity|]. split; [exists hd; split; [auto|]; f_equal; lia|]. split; [auto|]. intros i Hi. apply J. lia.
    + intros N0. assert (U : 2 ^ 64 - 17 <= u64 n < 2 ^ 64) by (rewrite (u64_neg n) by lia; lia). rewrite (new_wraps junk _ U). reflexivity.
Qed.
Print Assumptions c119_splitc.
Print Assumptions c119_splits.
Print Assumptions c119_no_list.
Print Assumptions c119_kept.
Print Assumptions c119_lost_refuted.
Print Assumptions c119_replace.
(** 17 pieces, the second request refused: the last piece and its separator are junk in the result *)
Example c119_ex :
  replace_mem 60 [true; true; false] (Some (fun _ => 7)) (mkSp (repeat 1 16 ++ [9; 0]) 0 17) (mkSp [1] 0 1) (mkSp [] 0 0)
  = Ret (Some (mkSp (repeat 7 16 ++ [7; 7; 0]) 16 2), mkSp (repeat 0 16 ++ [9; 0]) 0 17).
Proof. vm_compute. reflexivity. Qed.
(** "a", "b" -> "long": with no room for any piece the struct does not fit into its block *)
Example c119_ex2 : replace_mem 60 [true; false] (Some (fun _ => 7)) (mkSp [97; 0] 0 1) (mkSp [98] 0 1) (mkSp [108; 111; 110; 103] 0 4) = UB.
Proof. vm_compute. reflexivity. Qed.
Example c119_ex3 : splitc_mem [true; true] (mkSp [97; 58; 98; 0] 0 3) 58 = Ret ([], Some (mkPl [(0, 1); (2, 1)] 16), mkSp [97; 0; 98; 0] 0 3).
Proof. vm_compute. reflexivity. Qed.
