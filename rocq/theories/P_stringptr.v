(** Proofs about stringptr. *)
From Verif Require Import Base Bits Cstr M_stringptr S_stringptr D_stringptr.

Lemma holds_reads s t : holds s t -> zreads (sb s) (so s) (sz s) = Ret t.
Proof. intros (pre & post & E & Ho & Hs & _). rewrite E. now apply zreads_at. Qed.
Lemma holds_size s t : holds s t -> sz s = zlen t /\ 0 <= sz s < 2 ^ 63.
Proof. intros (pre & post & E & Ho & Hs & L). rewrite E in L. revert L. zl. zpos. lia. Qed.
(** reading inside the text *)
Lemma holds_sub s p m q : holds s (p ++ m ++ q) -> zreads (sb s) (so s + zlen p) (zlen m) = Ret m.
Proof.
  intros (pre & post & E & Ho & Hs & _). rewrite E. replace (pre ++ (p ++ m ++ q) ++ post) with ((pre ++ p) ++ m ++ (q ++ post)) by (now rewrite <- !app_assoc).
  apply zreads_at; [zl; lia|reflexivity].
Qed.
Lemma holds_read s p c q : holds s (p ++ c :: q) -> zread (sb s) (so s + zlen p) = Ret c.
Proof.
  intros (pre & post & E & Ho & Hs & _). rewrite E. replace (pre ++ (p ++ c :: q) ++ post) with ((pre ++ p) ++ c :: (q ++ post)) by (now rewrite <- !app_assoc).
  apply zread_at. zl. lia.
Qed.
Lemma memcmp_at n h p m q nt : holds n nt -> holds h (p ++ m ++ q) -> zlen m = zlen nt ->
  exists b, memcmp0 (sb n) (so n) (sb h) (so h + zlen p) (sz n) = Ret b /\ (b = true <-> m = nt).
Proof.
  intros Hn Hh L. unfold memcmp0. rewrite (holds_reads _ _ Hn). cbn [bind]. destruct (holds_size _ _ Hn) as [-> _]. rewrite <- L.
  rewrite (holds_sub _ _ _ _ Hh). cbn [bind]. eexists. split; [reflexivity|]. destruct (list_eq_dec _ _ _); split; congruence.
Qed.
Lemma occ_split (d t : list Z) i : 0 <= i <= zlen t -> (zlen d <= zlen t - i -> exists p m q, t = p ++ m ++ q /\ zlen p = i /\ zlen m = zlen d).
Proof.
  intros Hi L. exists (ztake i t), (ztake (zlen d) (zdrop i t)), (zdrop (zlen d) (zdrop i t)).
  rewrite !ztake_zdrop. split; [reflexivity|]. pose proof (zlen_nonneg d). rewrite !zlen_ztake; [lia| |lia]. rewrite zlen_zdrop; lia.
Qed.
Lemma app_len_inv {A} (p p' q q' : list A) : p ++ q = p' ++ q' -> zlen p = zlen p' -> p = p' /\ q = q'.
Proof.
  revert p'. induction p as [|x p IH]; intros [|y p'] H L; [auto|exfalso; revert L; zl; zpos; lia..|].
  cbn in H. injection H as -> H. destruct (IH p' H) as [-> ->]; [revert L; zl; lia|auto].
Qed.
Lemma occurs_at_iff d p m q : zlen m = zlen d -> (occurs_at d (p ++ m ++ q) (zlen p) <-> m = d).
Proof.
  intros L. split.
  - intros (p' & q' & E & Lp). apply app_len_inv in E as [-> E]; [|lia]. apply app_len_inv in E as [-> _]; auto.
  - intros ->. exists p, q. auto.
Qed.
Lemma occurs_at_bound d t i : occurs_at d t i -> 0 <= i /\ i + zlen d <= zlen t.
Proof. intros (p & q & -> & <-). zl. zpos. lia. Qed.

Lemma here_ok h n ht nt pos : holds h ht -> holds n nt -> 0 <= pos <= zlen ht ->
  exists r, stringptr_here h pos n = Ret r /\ (r = 1 /\ occurs_at nt ht pos \/ r = 0 /\ ~ occurs_at nt ht pos).
Proof.
  intros Hh Hn Hp. unfold stringptr_here. destruct (holds_size _ _ Hh) as [Sh Bh]. destruct (holds_size _ _ Hn) as [Sn Bn].
  rewrite u64_id by lia. rewrite Sn, Sh in *. destruct (zlen nt <=? zlen ht - pos) eqn:E.
  - destruct (occ_split nt ht pos Hp) as (p & m & q & -> & Lp & Lm); [lia|].
    destruct (memcmp_at n h p m q nt Hn Hh Lm) as (b & Eb & Hb). rewrite Sn, Lp in Eb. rewrite Eb. cbn [bind].
    exists (if b then 1 else 0). split; [reflexivity|]. rewrite <- Lp, (occurs_at_iff nt p m q Lm). destruct b; [left|right]; split; auto.
    + now apply Hb. + intros X. apply Hb in X. discriminate.
  - exists 0. split; [reflexivity|]. right. split; [reflexivity|]. intros O. apply occurs_at_bound in O. lia.
Qed.
Lemma contains_loop_ok h n ht nt : holds h ht -> holds n nt -> forall fuel pos, 0 <= pos <= zlen ht ->
  (Z.to_nat (zlen ht - pos) < fuel)%nat -> (forall i, i < pos -> ~ occurs_at nt ht i) ->
  exists r, contains_loop fuel h n pos = Ret r /\ (r = 1 /\ occurs nt ht \/ r = 0 /\ ~ occurs nt ht).
Proof.
  intros Hh Hn. destruct (holds_size _ _ Hh) as [Sh Bh]. destruct (holds_size _ _ Hn) as [Sn Bn].
  induction fuel as [|fuel IH]; intros pos Hp Hf Hno; [lia|].
  cbn [contains_loop].
  rewrite u64_id by lia. rewrite Sn, Sh in *. destruct (zlen nt <=? zlen ht - pos) eqn:E.
  - destruct (occ_split nt ht pos) as (p & m & q & Et & Lp & Lm); [lia..|].
    assert (Hh' : holds h (p ++ m ++ q)) by congruence.
    destruct (memcmp_at n h p m q nt Hn Hh' Lm) as (b & Eb & Hb). rewrite Sn, Lp in Eb. rewrite Eb. cbn [bind]. destruct b.
    + exists 1. split; [reflexivity|]. left. split; [reflexivity|]. exists pos. rewrite Et, <- Lp. apply occurs_at_iff; auto. now apply Hb.
    + assert (NE : m <> nt) by (intros X; apply Hb in X; discriminate).
      assert (0 < zlen nt). { destruct (Z.eq_dec (zlen nt) 0) as [Q|]; [|zpos; lia]. exfalso. rewrite Q in Lm. apply zlen_0 in Q, Lm. congruence. }
      rewrite u64_id by lia. apply IH; [lia|lia|].
      intros i Hi. destruct (Z.eq_dec i pos) as [->|]; [|apply Hno; lia]. rewrite Et, <- Lp, occurs_at_iff by auto. exact NE.
  - exists 0. split; [reflexivity|]. right. split; [reflexivity|].
    intros [i O]. pose proof (occurs_at_bound _ _ _ O). destruct (Z_lt_le_dec i pos); [now apply (Hno i)|lia].
Qed.
Lemma contains_ok h n ht nt : holds h ht -> holds n nt ->
  exists r, stringptr_contains h n = Ret r /\ (r = 1 /\ occurs nt ht \/ r = 0 /\ ~ occurs nt ht).
Proof.
  intros Hh Hn. unfold stringptr_contains. destruct (holds_size _ _ Hh) as [Sh Bh]. apply (contains_loop_ok h n ht nt Hh Hn); [zpos; lia|lia|].
  intros i Hi O. apply occurs_at_bound in O. lia.
Qed.

(** ---------- shift, chomp ---------- *)
Lemma shiftleft_ok s pre a x r : sb s = pre ++ a ++ x :: r -> so s = zlen pre -> zlen a <= sz s ->
  stringptr_shiftleft s (sz s - zlen a) = Ret (1, mkSp (pre ++ a ++ 0 :: r) (so s) (zlen a)).
Proof.
  intros E Ho L. unfold stringptr_shiftleft. zpos. replace (_ <=? _) with true by lia.
  replace (sz s - (sz s - zlen a)) with (zlen a) by lia. rewrite E. replace (pre ++ a ++ x :: r) with ((pre ++ a) ++ x :: r) by (now rewrite <- app_assoc).
  rewrite zwrite_at by (zl; lia). cbn [bind]. now rewrite <- app_assoc.
Qed.
Lemma last_split (t : list Z) : t <> [] -> exists a c, t = a ++ [c].
Proof. intros H. destruct (exists_last H) as (a & c & ->). eauto. Qed.
Lemma zrepeat_snoc {A} (x : A) n : 0 <= n -> zrepeat x n ++ [x] = zrepeat x (n + 1).
Proof. intros. unfold zrepeat. rewrite Z2Nat.inj_add by lia. rewrite Nat.add_comm. change (Z.to_nat 1) with 1%nat. cbn [repeat plus]. symmetry. apply repeat_cons. Qed.
Lemma zrepeat_cons {A} (x : A) n : 0 <= n -> x :: zrepeat x n = zrepeat x (n + 1).
Proof. intros. unfold zrepeat. rewrite Z2Nat.inj_add by lia. rewrite Nat.add_comm. reflexivity. Qed.
Lemma chomp_loop_ok : forall fuel s pre a b post res, Forall line_break b -> (a = [] \/ exists a0 c, a = a0 ++ [c] /\ ~ line_break c) ->
  sb s = pre ++ (a ++ b) ++ post -> so s = zlen pre -> sz s = zlen (a ++ b) -> (Z.to_nat (zlen b) < fuel)%nat ->
  0 <= res -> res + zlen b < 2 ^ 64 ->
  chomp_loop fuel s res = Ret (res + zlen b, mkSp (pre ++ (a ++ zrepeat 0 (zlen b)) ++ post) (zlen pre) (zlen a)).
Proof.
  induction fuel as [|fuel IH]; intros s pre a b post res Fb Ha E Ho Hs Hf Hr Hb; [lia|].
  cbn [chomp_loop].
  destruct (list_eq_dec Z.eq_dec b []) as [->|NE].
  - rewrite app_nil_r in *. change (zlen (@nil Z)) with 0. change (zrepeat 0 0) with (@nil Z). rewrite ?app_nil_r, Z.add_0_r.
    assert (ES : s = mkSp (pre ++ a ++ post) (zlen pre) (zlen a)) by (destruct s; cbn in *; congruence).
    destruct Ha as [->|(a0 & c & -> & Hc)].
    + rewrite Hs. cbn [zlen length Z.of_nat Z.eqb]. now rewrite ES.
    + replace (sz s =? 0) with false by (rewrite Hs; zl; zpos; lia).
      rewrite E, Ho, Hs. replace (pre ++ (a0 ++ [c]) ++ post) with ((pre ++ a0) ++ c :: post) by (now rewrite <- !app_assoc).
      rewrite zread_at by (zl; lia). cbn [bind].
      replace (_ || _) with false. { rewrite ES. now rewrite <- !app_assoc. }
      symmetry. unfold line_break in Hc. lia.
  - destruct (last_split b NE) as (b0 & c & ->). apply Forall_app in Fb as [Fb0 Fc]. apply Forall_inv in Fc.
    replace (sz s =? 0) with false by (rewrite Hs; zl; zpos; lia).
    assert (E1 : sb s = pre ++ (a ++ b0) ++ c :: post). { rewrite E, <- !app_assoc. reflexivity. }
    assert (S1 : sz s = zlen (a ++ b0) + 1) by (rewrite Hs; zl; lia).
    assert (RD : zread (sb s) (so s + (sz s - 1)) = Ret c).
    { rewrite E1. rewrite app_assoc. apply zread_at. rewrite S1. zl. lia. }
    rewrite RD. cbn [bind]. replace (_ || _) with true by (symmetry; unfold line_break in Fc; lia).
    pose proof (shiftleft_ok s pre (a ++ b0) c post E1 Ho ltac:(lia)) as SL. replace (sz s - zlen (a ++ b0)) with 1 in SL by lia.
    rewrite SL. cbn [bind Z.eqb]. assert (Lb : zlen (b0 ++ [c]) = zlen b0 + 1) by (zl; lia). rewrite Lb in *. zpos. rewrite u64_id by lia.
    rewrite (IH _ pre a b0 (0 :: post) (res + 1)); cbn [sb so sz]; auto; try lia.
    f_equal. f_equal; [lia|]. f_equal. rewrite <- (zrepeat_snoc 0 (zlen b0)) by lia. rewrite <- !app_assoc. reflexivity.
Qed.
Lemma chomp_ok s pre a b post : holds_in s pre (a ++ b) post -> Forall line_break b -> (a = [] \/ exists a0 c, a = a0 ++ [c] /\ ~ line_break c) ->
  stringptr_chomp s = Ret (zlen b, mkSp (pre ++ (a ++ zrepeat 0 (zlen b)) ++ post) (zlen pre) (zlen a)).
Proof.
  intros (E & Ho & Hs & L) Fb Ha. unfold stringptr_chomp. rewrite E in L. revert L. zl. zpos. intros L.
  rewrite (chomp_loop_ok _ s pre a b post 0); auto; try lia; rewrite ?Hs; zl; lia.
Qed.

(** ---------- rchr ---------- *)
Lemma rchr_loop_ok s needle : forall p q, holds s (p ++ q) ->
  (exists p1 c p2, p = p1 ++ c :: p2 /\ s8 c = needle /\ Forall (fun x => s8 x <> needle) p2 /\ rchr_loop (length p) s needle = Ret (Some (zlen p1))) \/
  (Forall (fun x => s8 x <> needle) p /\ rchr_loop (length p) s needle = Ret None).
Proof.
  induction p as [|c p IH] using rev_ind; intros q H; [right; split; [constructor|reflexivity]|].
  rewrite app_length. cbn [length]. rewrite Nat.add_1_r. cbn [rchr_loop]. rewrite <- app_assoc in H. cbn [app] in H.
  pose proof (holds_read _ _ _ _ H) as R. unfold zlen in R. rewrite R. cbn [bind].
  destruct (s8 c =? needle) eqn:E.
  - left. exists p, c, []. split; [reflexivity|]. split; [lia|]. split; [constructor|reflexivity].
  - destruct (IH (c :: q)) as [(p1 & d & p2 & -> & H1 & H2 & H3)|(H1 & H2)]; [exact H| |].
    + left. exists p1, d, (p2 ++ [c]). split; [now rewrite <- app_assoc|]. split; [auto|]. split; [|exact H3].
      apply Forall_app; split; auto. constructor; [lia|constructor].
    + right. split; [|exact H2]. apply Forall_app; split; auto. constructor; [lia|constructor].
Qed.
Lemma rchr_ok s t needle : holds s t ->
  (exists p c q, t = p ++ c :: q /\ s8 c = needle /\ Forall (fun x => s8 x <> needle) q /\ stringptr_rchr s needle = Ret (Some (zlen p))) \/
  (Forall (fun x => s8 x <> needle) t /\ stringptr_rchr s needle = Ret None).
Proof.
  intros H. unfold stringptr_rchr. destruct (holds_size _ _ H) as [S B]. destruct (sz s =? 0) eqn:E.
  - right. assert (Q : zlen t = 0) by lia. apply zlen_0 in Q. subst t. split; [constructor|reflexivity].
  - rewrite S. replace (Z.to_nat (zlen t)) with (length t) by (unfold zlen; now rewrite Nat2Z.id). apply (rchr_loop_ok s needle t []). now rewrite app_nil_r.
Qed.

(** ---------- hash ---------- *)
Lemma lxor_mod a b n : 0 <= n -> (Z.lxor a b) mod 2 ^ n = Z.lxor (a mod 2 ^ n) (b mod 2 ^ n).
Proof.
  intros Hn. apply Z.bits_inj'. intros i Hi. rewrite Z.lxor_spec.
  destruct (Z_lt_le_dec i n).
  - rewrite !Z.mod_pow2_bits_low by lia. apply Z.lxor_spec.
  - rewrite !Z.mod_pow2_bits_high by lia. reflexivity.
Qed.
Lemma top_nibble t : Z.land (Z.shiftr t 24) 240 = 16 * ((t mod 2 ^ 32) / 2 ^ 28).
Proof.
  change 240 with (Z.shiftl 15 4). change 16 with (2 ^ 4). rewrite Z.mul_comm, <- Z.shiftl_mul_pow2, <- Z.shiftr_div_pow2 by lia.
  apply Z.bits_inj'. intros i Hi. rewrite Z.land_spec, Z.shiftr_spec by lia.
  destruct (Z_lt_le_dec i 4).
  - rewrite !Z.shiftl_spec_low by lia. apply andb_false_r.
  - rewrite !Z.shiftl_spec, Z.shiftr_spec by lia. replace (i - 4 + 28) with (i + 24) by lia. change 15 with (Z.ones 4).
    destruct (Z_lt_le_dec i 8).
    + rewrite Z.ones_spec_low, Z.mod_pow2_bits_low by lia. apply andb_true_r.
    + rewrite Z.ones_spec_high, Z.mod_pow2_bits_high by lia. apply andb_false_r.
Qed.
Lemma elf_range h c : 0 <= elf_step h c < 2 ^ 28.
Proof.
  unfold elf_step. set (t := (16 * h + c) mod 2 ^ 32).
  assert (T : 0 <= t < 2 ^ 32) by (apply Z.mod_pos_bound; lia).
  assert (B : 0 <= t / 2 ^ 28 < 16). { split; [apply Z.div_pos; lia|apply Z.div_lt_upper_bound; lia]. }
  assert (A : 0 <= t mod 2 ^ 28 < 2 ^ 28) by (apply Z.mod_pos_bound; lia).
  rewrite <- (Z.mod_small (16 * (t / 2 ^ 28)) (2 ^ 28)) by lia. rewrite <- (Z.mod_mod t) by lia. rewrite <- lxor_mod by lia.
  apply Z.mod_pos_bound. lia.
Qed.
Lemma hash_loop_ok w s : w = 2 ^ 32 \/ w = 2 ^ 64 -> forall t q p h e, holds s (p ++ t ++ q) -> h mod 2 ^ 28 = e ->
  exists h', hash_loop (length t) w (sb s) (so s + zlen p) h = Ret h' /\ h' mod 2 ^ 28 = fold_left elf_step t e.
Proof.
  intros W. induction t as [|c t IH]; intros q p h e H He; [cbn [length hash_loop]; exists h; auto|].
  cbn [length hash_loop fold_left]. cbn [app] in H. rewrite (holds_read _ _ _ _ H). cbn [bind].
  set (t1 := (16 * h + c) mod w). rewrite top_nibble.
  assert (H' : holds s ((p ++ [c]) ++ t ++ q)) by (now rewrite <- app_assoc).
  assert (T : t1 mod 2 ^ 32 = (16 * e + c) mod 2 ^ 32).
  { unfold t1. rewrite <- Znumtheory.Zmod_div_mod; [|lia|lia|destruct W as [->| ->]; [exists 1|exists (2 ^ 32)]; reflexivity].
    subst e. rewrite (Z.mod_eq h (2 ^ 28)) by lia.
    replace (16 * (h - 2 ^ 28 * (h / 2 ^ 28)) + c) with (16 * h + c + (- (h / 2 ^ 28)) * 2 ^ 32) by ring. now rewrite Z.mod_add by lia. }
  replace (so s + zlen p + 1) with (so s + zlen (p ++ [c])) by (zl; lia).
  apply (IH q); [exact H'|]. unfold elf_step. rewrite <- T, lxor_mod by lia.
  assert (B : 0 <= (t1 mod 2 ^ 32) / 2 ^ 28 < 16).
  { pose proof (Z.mod_pos_bound t1 (2 ^ 32) ltac:(lia)). split; [apply Z.div_pos; lia|apply Z.div_lt_upper_bound; lia]. }
  f_equal; [|apply Z.mod_small; lia]. apply Znumtheory.Zmod_div_mod; [lia|lia|]. exists 16. reflexivity.
Qed.
Lemma hash_ok w s t : w = 2 ^ 32 \/ w = 2 ^ 64 -> holds s t -> stringptr_hash w s = Ret (elf_hash t).
Proof.
  intros W H. unfold stringptr_hash. destruct (holds_size _ _ H) as [S B]. rewrite S. replace (Z.to_nat (zlen t)) with (length t) by (unfold zlen; now rewrite Nat2Z.id).
  destruct (hash_loop_ok w s W t [] [] 0 0) as (h & E & M); [now rewrite app_nil_r|reflexivity|].
  change (zlen (@nil Z)) with 0 in E. rewrite Z.add_0_r in E. rewrite E. cbn [bind]. change 268435455 with (2 ^ 28 - 1).
  rewrite land_mask by lia. now rewrite M.
Qed.
Lemma elf_hash_range t : 0 <= elf_hash t < 2 ^ 28.
Proof.
  destruct t as [|c t] using rev_ind; [cbn; lia|]. unfold elf_hash. rewrite fold_left_app. apply elf_range.
Qed.

(** ---------- eq, copy, strdup, concat ---------- *)
Lemma eq_ok a b ta tb : holds a ta -> holds b tb -> stringptr_eq (Some a) (Some b) = Ret (if list_eq_dec Z.eq_dec ta tb then 1 else 0).
Proof.
  intros Ha Hb. destruct (holds_size _ _ Ha) as [Sa Ba]. destruct (holds_size _ _ Hb) as [Sb Bb]. cbn [stringptr_eq].
  destruct (sz a =? sz b) eqn:E.
  - unfold memcmp0. rewrite (holds_reads _ _ Ha). cbn [bind]. replace (sz a) with (sz b) by lia. rewrite (holds_reads _ _ Hb). cbn [bind].
    now destruct (list_eq_dec Z.eq_dec ta tb).
  - destruct (list_eq_dec Z.eq_dec ta tb) as [->|]; [lia|reflexivity].
Qed.
Lemma zlen_block j n : 0 <= n -> zlen (block j n) = n.
Proof. intros. unfold block. rewrite zlen_map. unfold zlen. rewrite seq_length. lia. Qed.
Lemma zsnoc {A} (l : list A) n : 0 <= n -> zlen l = n + 1 -> exists a x, l = a ++ [x] /\ zlen a = n.
Proof.
  intros Hn H. assert (N : l <> []) by (intros ->; change (0 = n + 1) in H; lia).
  destruct (exists_last N) as (a & x & ->). exists a, x. split; auto. revert H. zl. lia.
Qed.
(** the rest below: results of stringptr_new *)
Lemma new_none size : stringptr_new None size = Ret None.
Proof. reflexivity. Qed.
Lemma new_ok junk size : 0 <= size < 2 ^ 64 - 17 -> exists hd body, zlen hd = 16 /\ zlen body = size /\
  stringptr_new (Some junk) size = Ret (Some (mkSp (hd ++ body ++ [0]) 16 size)).
Proof.
  intros H. cbn [stringptr_new]. rewrite u64_id by lia.
  destruct (zsplit 16 (block junk (16 + size + 1))) as (hd & r & E & L1); [rewrite zlen_block by lia; lia|].
  pose proof (zlen_block junk (16 + size + 1) ltac:(lia)) as L. rewrite E in L. revert L. zl. intros L.
  destruct (zsnoc r size) as (body & x & -> & Lb); [lia|lia|].
  exists hd, body. split; auto. split; auto. rewrite E. rewrite app_assoc. rewrite zwrite_at by (zl; lia). cbn [bind]. now rewrite <- app_assoc.
Qed.
Lemma memcpy_at p m q s t : holds s t -> zlen m = zlen t -> memcpy (p ++ m ++ q) (zlen p) (sb s) (so s) (sz s) = Ret (p ++ t ++ q).
Proof. intros H L. unfold memcpy. rewrite (holds_reads _ _ H). cbn [bind]. now apply zwrites_at. Qed.
Lemma copy_ok junk s t : holds s t -> exists r, stringptr_copy (Some junk) s = Ret r /\ new_with r t.
Proof.
  intros H. destruct (holds_size _ _ H) as [S B]. unfold stringptr_copy.
  destruct (new_ok junk (sz s)) as (hd & body & L1 & L2 & E); [lia|]. rewrite E. cbn [bind sb so sz].
  pose proof (memcpy_at hd body [0] s t H ltac:(lia)) as M. rewrite L1 in M. rewrite M. cbn [bind].
  eexists. split; [reflexivity|]. exists hd. split; auto. now rewrite S.
Qed.
Lemma strdup_ok junk s t : holds s t -> stringptr_strdup (Some junk) s = Ret (Some (t ++ [0])).
Proof.
  intros H. destruct (holds_size _ _ H) as [S B]. cbn [stringptr_strdup]. rewrite u64_id by lia.
  destruct (zsnoc (block junk (sz s + 1)) (sz s)) as (a & x & E & L); [lia|apply zlen_block; lia|]. rewrite E.
  pose proof (memcpy_at [] a [x] s t H ltac:(lia)) as M. change (zlen (@nil Z)) with 0 in M. cbn [app] in M. rewrite M. cbn [bind].
  rewrite zwrite_at by lia. reflexivity.
Qed.
Lemma concat_total_ok : forall args ts, Forall2 holds args ts -> forall n, 0 <= n -> n + zlen (concat ts) < 2 ^ 64 ->
  fold_left (fun t c => u64 (t + sz c)) args n = n + zlen (concat ts).
Proof.
  induction 1 as [|a t args ts Ha _ IH]; intros n Hn L; cbn [fold_left concat] in *; [change (zlen (@nil Z)) with 0; lia|].
  destruct (holds_size _ _ Ha) as [S B]. revert L. zl. intros L. zpos. rewrite S, u64_id by lia. rewrite IH by lia. lia.
Qed.
Lemma concat_loop_ok : forall args ts, Forall2 holds args ts -> forall p m q, zlen m = zlen (concat ts) ->
  concat_loop args (p ++ m ++ q) (zlen p) = Ret (p ++ concat ts ++ q).
Proof.
  induction 1 as [|a t args ts Ha _ IH]; intros p m q L; cbn [concat concat_loop] in *.
  - apply zlen_0 in L. now subst.
  - revert L. zl. intros L. destruct (zsplit (zlen t) m) as (m1 & m2 & -> & L1); [zpos; lia|].
    rewrite <- app_assoc. rewrite (memcpy_at p m1 (m2 ++ q) a t) by auto. cbn [bind].
    destruct (holds_size _ _ Ha) as [-> _]. replace (zlen p + zlen t) with (zlen (p ++ t)) by (zl; lia).
    rewrite app_assoc. rewrite (IH (p ++ t) m2 q) by (revert L; zl; lia). now rewrite <- !app_assoc.
Qed.
Lemma concat_ok junk self t args ts : holds self t -> Forall2 holds args ts -> zlen (t ++ concat ts) < 2 ^ 64 - 17 ->
  exists r, stringptr_concat (Some junk) self args = Ret (Some r) /\ new_with r (t ++ concat ts).
Proof.
  intros H F L. destruct (holds_size _ _ H) as [S B]. unfold stringptr_concat, concat_total. revert L. zl. intros L. zpos.
  rewrite (concat_total_ok args ts F) by lia. rewrite S.
  destruct (new_ok junk (zlen t + zlen (concat ts))) as (hd & body & L1 & L2 & E); [lia|]. rewrite E. cbn [bind sb so sz].
  destruct (zsplit (zlen t) body) as (b1 & b2 & -> & L3); [lia|]. revert L2. zl. intros L2.
  pose proof (memcpy_at hd b1 (b2 ++ [0]) self t H L3) as M. rewrite L1, S in M. rewrite <- app_assoc, M. cbn [bind].
  replace (16 + zlen t) with (zlen (hd ++ t)) by (zl; lia). rewrite app_assoc.
  rewrite (concat_loop_ok args ts F (hd ++ t) b2 [0]) by lia. cbn [bind]. eexists. split; [reflexivity|].
  exists hd. split; auto. f_equal; [now rewrite <- !app_assoc|zl; lia].
Qed.
