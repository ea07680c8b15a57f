(** Proofs about the sha512 test program. *)
From Verif Require Import Base Bits Cstr M_hex S_num S_hex P_hex M_sha512 S_hash S_sha512 D_sha512 P_sha512b M_stringptr D_stringptr M_spfile S_fileparser P_spfile M_shatest D_shatest.

(** ---------- lengths ---------- *)
Lemma zwrite_len (b : list Z) i v b' : zwrite b i v = Ret b' -> zlen b' = zlen b.
Proof.
  intros H. destruct (Z_lt_dec i 0) as [L|L]; [rewrite zwrite_oob in H by lia; discriminate|].
  destruct (Z_le_dec (zlen b) i) as [G|G]; [rewrite zwrite_oob in H by lia; discriminate|]. rewrite zwrite_ok in H by lia. injection H as <-.
  zl. rewrite zlen_ztake, zlen_zdrop by lia. lia.
Qed.
Lemma for_inv {A} (P : A -> Prop) (body : Z -> A -> out A) : (forall i s s', P s -> body i s = Ret s' -> P s') ->
  forall n i s s', P s -> for_ n i body s = Ret s' -> P s'.
Proof.
  intros H. induction n as [|n IH]; intros i s s' Hs E; cbn [for_] in E; [injection E as <-; exact Hs|].
  apply bind_eq_ret in E as (t & E1 & E2). exact (IH _ _ _ (H _ _ _ Hs E1) E2).
Qed.
Lemma ts64_len x o u x' : ts64 x o u = Ret x' -> zlen x' = zlen x.
Proof.
  unfold ts64. intros E. apply bind_eq_ret in E as ([y u'] & E1 & E2). injection E2 as <-.
  apply (for_inv (fun s => zlen (fst s) = zlen x)) in E1; [exact E1| |reflexivity].
  intros i [s v] [s' v'] Hs Eb. apply bind_eq_ret in Eb as (t & Ew & Et). injection Et as <- <-. cbn [fst] in *. now rewrite (zwrite_len _ _ _ _ Ew).
Qed.
Lemma sha512_len d : zlen (sha512 d) = 64.
Proof.
  unfold sha512. change (concat (map (be_bytes 8) (sha_blocks (sha_pad d)))) with (enc (sha_blocks (sha_pad d))). rewrite enc_len. unfold sha_blocks.
  destruct iv_ok as (_ & Li & _). unfold zlen. rewrite fold_len by exact Li. reflexivity.
Qed.
Lemma sha512_bytes d : bytes (sha512 d).
Proof. exact (enc_bytes _). Qed.
Lemma end_len c c' : sha512_end c = Ret c' -> zlen (cx c') = zlen (cx c).
Proof.
  unfold sha512_end. intros E. apply bind_eq_ret in E as (x1 & E1 & E). cbv zeta in E. apply bind_eq_ret in E as (x2 & E2 & E). apply bind_eq_ret in E as (x3 & E3 & E).
  apply bind_eq_ret in E as (h & E4 & E). injection E as <-. cbn [cx]. now rewrite (ts64_len _ _ _ _ E3), (zwrite_len _ _ _ _ E2), (zwrite_len _ _ _ _ E1).
Qed.
Lemma rep_len full r c : rep full r c -> zlen (cx c) = 256.
Proof. intros (n & _ & Lr & _ & Ex & _). rewrite Ex. zpos. zl. rewrite zlen_zrepeat by lia. lia. Qed.
Lemma end_ok' full r c : rep full r c -> exists c', sha512_end c = Ret c' /\ ch c' = sha512 (full ++ r) /\ zlen (cx c') = 256.
Proof.
  intros R. destruct (end_ok full r c R) as (c' & E & H). exists c'. split; [exact E|]. split; [exact H|]. rewrite (end_len _ _ E). exact (rep_len _ _ _ R).
Qed.

(** ---------- crypto_hash ---------- *)
Lemma crypto_hash_ok h x dst l q : zlen h = 64 -> zlen x = 256 -> 64 <= zlen dst -> bytes l -> zlen l < 2 ^ 64 ->
  crypto_hash h x dst (l ++ q) (zlen l) = Ret (sha512 l ++ zdrop 64 dst).
Proof.
  intros Lh Lx Ld B Ll. pose proof (zlen_nonneg l) as Pl. unfold crypto_hash. cbv zeta.
  destruct (init_ok (mkCtx h x 0) Lh Lx) as (c0 & E0 & R0).
  destruct (update_ok [] l q [] [] c0 B R0 (or_introl eq_refl)) as (f & r & c1 & E1 & Ed & _ & R1); [change (zlen []) with 0; lia|].
  destruct (end_ok f r c1 R1) as (c2 & E2 & H2). cbn [app] in *. rewrite <- Ed in H2.
  unfold sha512_init in E0. cbn [ch cx] in E0. apply bind_eq_ret in E0 as (h0 & Eh0 & E0). apply bind_eq_ret in E0 as (x0 & Ex0 & E0). injection E0 as <-.
  unfold sha512_update in E1. cbn [ch cx cb] in E1. change (zlen (@nil Z)) with 0 in E1. apply bind_eq_ret in E1 as (h1 & Eh1 & E1). cbv zeta in E1. apply bind_eq_ret in E1 as (x1 & Ex1 & E1). injection E1 as <-.
  unfold sha512_end in E2. cbn [ch cx cb] in E2. change (0 + zlen l) with (zlen l) in Ex1.
  replace (u64 (zlen l)) with (zlen l) in E2 by (unfold u64; lia). cbv zeta in E2.
  apply bind_eq_ret in E2 as (x2 & Ex2 & E2). apply bind_eq_ret in E2 as (x3 & Ex3 & E2). apply bind_eq_ret in E2 as (x4 & Ex4 & E2). apply bind_eq_ret in E2 as (h2 & Eh2 & E2). injection E2 as <-. cbn [ch] in H2.
  rewrite Eh0, bind_ret. replace (Z.to_nat (zlen l)) with (length l) by (unfold zlen; lia). rewrite Eh1, bind_ret, Ex0, bind_ret, Ex1, bind_ret, Ex2, bind_ret, Ex3, bind_ret, Ex4, bind_ret, Eh2, bind_ret.
  pose proof (sha512_len l) as L2. rewrite H2. set (s := sha512 l) in *. clearbody s. destruct (zsplit 64 dst) as (d1 & d2 & -> & L1); [lia|].
  pose proof (copy_loop (zread s) s [] d1 d2 ltac:(lia)) as H. cbn [app] in H. change (zlen (@nil Z)) with 0 in H. replace (length s) with 64%nat in H by (unfold zlen in L2; lia).
  rewrite H; [|intros k Hk; rewrite Z.add_0_l; apply zread_ok; lia]. f_equal. f_equal. rewrite <- L1. symmetry. apply zdrop_app_exact.
Qed.

(** ---------- to_str ---------- *)
Lemma to_str_raw2hex : forall n i hash dst, to_str_loop n i hash dst = raw2hex_loop n dst hash i (2 * i).
Proof.
  induction n as [|n IH]; intros i hash dst; [reflexivity|]. cbn [to_str_loop raw2hex_loop]. destruct (zread hash i) as [b| |]; [|reflexivity|reflexivity]. rewrite !bind_ret.
  rewrite Z.add_0_r. destruct (zread hextab (Z.land 15 (Z.shiftr b 4))) as [c| |]; [|reflexivity|reflexivity]. rewrite !bind_ret.
  destruct (zwrite dst (2 * i) c) as [d| |]; [|reflexivity|reflexivity]. rewrite !bind_ret. destruct (zread hextab (Z.land 15 b)) as [c'| |]; [|reflexivity|reflexivity]. rewrite !bind_ret.
  destruct (zwrite d (2 * i + 1) c') as [d'| |]; [|reflexivity|reflexivity]. rewrite !bind_ret, IH. f_equal. lia.
Qed.
Lemma to_str_n x r dst : bytes x -> 2 * zlen x + 1 <= zlen dst -> to_str_loop (length x) 0 (x ++ r) dst = Ret (hex_of x ++ 0 :: zdrop (2 * zlen x + 1) dst).
Proof.
  intros B L. rewrite to_str_raw2hex. rewrite <- (raw2hex_ok x r dst B L). unfold raw2hex. f_equal. unfold zlen. lia.
Qed.
Lemma to_str_ok x r dst : bytes x -> zlen x = 64 -> 129 <= zlen dst -> sha512_to_str (x ++ r) dst = Ret (hex_of x ++ 0 :: zdrop 129 dst).
Proof. intros B L Ld. unfold sha512_to_str. pose proof (to_str_n x r dst B ltac:(lia)) as H. rewrite L in H. replace (length x) with 64%nat in H by (unfold zlen in L; lia). exact H. Qed.

(** ---------- comparisons ---------- *)
Lemma memeq_ok : forall a b p p' q q', length a = length b -> zlen p = zlen p' -> exists e, memeq (length a) (p ++ a ++ q) (p' ++ b ++ q') (zlen p) = Ret e /\ (e = true <-> a = b).
Proof.
  induction a as [|x a IH]; intros [|y b] p p' q q' L Lp; try discriminate L; cbn [length memeq]; [exists true; split; [reflexivity|tauto]|].
  cbn [app]. rewrite zread_at by reflexivity. rewrite zread_at by exact Lp. rewrite !bind_ret. destruct (Z.eqb_spec x y) as [->|Ne].
  - destruct (IH b (p ++ [y]) (p' ++ [y]) q q') as (e & E & He); [cbn in L; lia|zl; lia|]. exists e. split; [|rewrite He; split; [congruence|intros X; now inversion X]].
    rewrite <- E. rewrite <- !app_assoc. cbn [app]. f_equal. zl. lia.
  - exists false. split; [reflexivity|]. split; [discriminate|]. intros X. inversion X. contradiction.
Qed.
Lemma memeq_self a : forall n i, 0 <= i -> i + Z.of_nat n <= zlen a -> memeq n a a i = Ret true.
Proof. induction n as [|n IH]; intros i Hi Hn; [reflexivity|]. cbn [memeq]. rewrite (zread_ok 0) by lia. rewrite !bind_ret, Z.eqb_refl. apply IH; lia. Qed.
Lemma memeq_pre s : forall n i q q', 0 <= i -> i + Z.of_nat n <= zlen s -> memeq n (s ++ q) (s ++ q') i = Ret true.
Proof. induction n as [|n IH]; intros i q q' Hi Hn; [reflexivity|]. cbn [memeq]. rewrite !zread_app1 by lia. rewrite (zread_ok 0) by lia. rewrite !bind_ret, Z.eqb_refl. apply IH; lia. Qed.
Lemma cstreq_ok : forall a b q q', nz a -> nz b -> exists e, cstreq (a ++ 0 :: q) (b ++ 0 :: q') = Ret e /\ (e = true <-> a = b).
Proof.
  induction a as [|x a IH]; intros [|y b] q q' Na Nb; cbn [app cstreq].
  - exists true. split; [reflexivity|tauto].
  - inversion Nb as [|? ? Hy _]; subst. replace (0 =? y) with false by lia. exists false. split; [reflexivity|]. split; [discriminate|discriminate].
  - inversion Na as [|? ? Hx _]; subst. replace (x =? 0) with false by lia. exists false. split; [reflexivity|]. split; [discriminate|discriminate].
  - inversion Na as [|? ? Hx Na']; subst. inversion Nb as [|? ? Hy Nb']; subst. destruct (Z.eqb_spec x y) as [->|Ne]; [|exists false; split; [reflexivity|split; [discriminate|intros X; inversion X; contradiction]]].
    replace (y =? 0) with false by lia. destruct (IH b q q' Na' Nb') as (e & E & He). exists e. split; [exact E|]. rewrite He. split; [congruence|intros X; now inversion X].
Qed.
Lemma digit_nz d : 0 <= d < 16 -> digit_char true d <> 0.
Proof. intros H. unfold digit_char. repeat match goal with |- context [if ?b then _ else _] => destruct b end; lia. Qed.
Lemma hex_nz x : bytes x -> nz (hex_of x).
Proof.
  induction x as [|b x IH]; intros B; [constructor|]. apply bytes_cons in B as [Bb B]. unfold byte in Bb. unfold hex_of. cbn [map concat app].
  constructor; [apply digit_nz; lia|]. constructor; [apply digit_nz; lia|]. now apply IH.
Qed.
Lemma hex_len x : zlen (hex_of x) = 2 * zlen x.
Proof. unfold hex_of. induction x as [|b x IH]; [reflexivity|]. cbn [map concat app]. zl. lia. Qed.

(** ---------- the 128-byte chunks ---------- *)
Lemma feed_ok : forall fuel p l q c, bytes l -> rep p [] c -> zlen p + zlen l < 2 ^ 64 -> zlen l < Z.of_nat fuel ->
  exists full r c', feed fuel c (p ++ l ++ q) (zlen p) (zlen l) = Ret c' /\ p ++ l = full ++ r /\ rep full r c'.
Proof.
  induction fuel as [|fuel IH]; intros p l q c B R Hl Hf; [zpos; lia|]. cbn [feed]. pose proof (zlen_nonneg l) as Pl. destruct (Z.eqb_spec (zlen l) 0) as [E|E].
  - apply zlen_0 in E. subst l. exists p, [], c. split; [reflexivity|]. split; [reflexivity|exact R].
  - destruct (128 <=? zlen l) eqn:C.
    + destruct (zsplit 128 l) as (l1 & l2 & -> & L1); [lia|]. apply bytes_app in B as [B1 B2]. revert Hl Hf. zl. intros Hl Hf.
      destruct (update_ok p l1 (l2 ++ q) p [] c B1 R (or_introl eq_refl)) as (f & r & c' & E1 & Ed & Em & R1); [change (zlen []) with 0; zpos; lia|].
      rewrite <- app_assoc. rewrite L1 in E1. replace (length l1) with (Z.to_nat 128) in E1 by (unfold zlen in L1; lia). rewrite E1, bind_ret.
      rewrite (Em ltac:(rewrite L1; reflexivity) eq_refl) in *. cbn [app] in Ed. rewrite app_nil_r in Ed. subst f.
      destruct (IH (p ++ l1) l2 q c' B2 R1) as (full & r2 & c2 & E2 & Ed2 & R2); [zl; lia|lia|]. exists full, r2, c2. split; [|split; [now rewrite app_assoc|exact R2]].
      rewrite <- E2. rewrite <- app_assoc. f_equal; zl; lia.
    + destruct (update_ok p l q p [] c B R (or_introl eq_refl)) as (f & r & c' & E1 & Ed & Em & R1); [change (zlen []) with 0; lia|].
      replace (Z.to_nat (zlen l)) with (length l) by (unfold zlen; lia). rewrite E1, bind_ret, Z.sub_diag. destruct fuel as [|fuel]; [lia|]. cbn [feed]. change (0 =? 0) with true. cbv iota.
      exists f, r, c'. split; [reflexivity|]. split; [exact Ed|exact R1].
Qed.

(** ---------- one iteration, all iterations ---------- *)
Lemma land255 r : byte (Z.land r 255).
Proof. change 255 with (2 ^ 8 - 1). rewrite land_mask by lia. unfold byte. change (2 ^ 8) with 256. lia. Qed.
Lemma step_ok r j l x q h1 h2 h3 : sane j -> bytes l -> zlen l < 2 ^ 64 -> zlen h1 = 64 -> zlen h2 = 64 -> zlen h3 = 64 ->
  test_step r j (zlen l) (l ++ x :: q) h1 h2 h3 = Ret (l ++ Z.land r 255 :: q, sha512 l, sha512 l, sha512 l, true).
Proof.
  intros (Lh & Lx & Lch & Lcx) B Ll L1 L2 L3. unfold test_step. pose proof (zlen_nonneg l) as Pl. rewrite zwrite_at by reflexivity. rewrite bind_ret.
  rewrite crypto_hash_ok by (auto; lia). rewrite bind_ret, (zdrop_all 64 h1), app_nil_r by lia.
  destruct (init_ok (jc j) Lch Lcx) as (c0 & E0 & R0). rewrite E0, bind_ret. set (q' := Z.land r 255 :: q).
  destruct (update_ok [] l q' [] [] c0 B R0 (or_introl eq_refl)) as (f & r1 & c1 & E1 & Ed & _ & R1); [change (zlen []) with 0; lia|]. cbn [app] in E1, Ed. change (zlen (@nil Z)) with 0 in E1.
  replace (Z.to_nat (zlen l)) with (length l) by (unfold zlen; lia). rewrite E1, bind_ret. destruct (end_ok' f r1 c1 R1) as (c2 & E2 & H2 & X2). rewrite E2, bind_ret. rewrite <- Ed in H2. rewrite H2.
  pose proof (sha512_len l) as Ls. rewrite zreads_ok by lia. rewrite bind_ret. change (zdrop 0 (sha512 l)) with (sha512 l). rewrite (ztake_all 64) by lia. rewrite zwrites_ok by lia. rewrite bind_ret, Ls. change (ztake 0 h2) with (@nil Z). cbn [app]. rewrite (zdrop_all _ h2), app_nil_r by lia.
  destruct (init_ok c2) as (c3 & E3 & R3); [rewrite H2; exact Ls|exact X2|]. rewrite E3, bind_ret.
  destruct (feed_ok (S (length l)) [] l q' c3 B R3) as (f3 & r3 & c4 & E4 & Ed4 & R4); [change (zlen []) with 0; lia|unfold zlen; lia|]. cbn [app] in E4, Ed4. change (zlen (@nil Z)) with 0 in E4. rewrite E4, bind_ret.
  destruct (end_ok' f3 r3 c4 R4) as (c5 & E5 & H5 & _). rewrite E5, bind_ret. rewrite <- Ed4 in H5. rewrite H5.
  rewrite zreads_ok by lia. rewrite bind_ret. change (zdrop 0 (sha512 l)) with (sha512 l). rewrite (ztake_all 64) by lia. rewrite zwrites_ok by lia. rewrite bind_ret, Ls. change (ztake 0 h3) with (@nil Z). cbn [app]. rewrite (zdrop_all _ h3), app_nil_r by lia.
  rewrite !memeq_self by lia. reflexivity.
Qed.
Lemma loop_ok rnd junk : (forall i, sane (junk i)) -> forall n l q h1 h2 h3, bytes l -> length q = n -> zlen l + zlen q < 2 ^ 64 -> zlen h1 = 64 -> zlen h2 = 64 -> zlen h3 = 64 ->
  test_loop n rnd junk (zlen l) (l ++ q) h1 h2 h3 = Ret [].
Proof.
  intros J. induction n as [|n IH]; intros l q h1 h2 h3 B Lq Ll L1 L2 L3; [reflexivity|]. destruct q as [|x q]; [discriminate|]. cbn [test_loop]. pose proof (zlen_nonneg (x :: q)) as Pq.
  rewrite step_ok by (auto; lia). rewrite bind_ret. pose proof (sha512_len l) as Ls. set (s := sha512 l) in *. clearbody s.
  change (Z.land (rnd (zlen l)) 255 :: q) with ([Z.land (rnd (zlen l)) 255] ++ q). rewrite app_assoc. replace (zlen l + 1) with (zlen (l ++ [Z.land (rnd (zlen l)) 255])) by (zl; lia).
  rewrite IH; auto; [apply bytes_app; split; [exact B|constructor; [apply land255|constructor]]|revert Ll; zl; lia].
Qed.
Lemma test_ok rnd junk buf h1 h2 h3 : (forall i, sane (junk i)) -> zlen buf < 2 ^ 64 -> zlen h1 = 64 -> zlen h2 = 64 -> zlen h3 = 64 ->
  test rnd junk buf h1 h2 h3 = Ret (0, []).
Proof. intros J Lb L1 L2 L3. unfold test. pose proof (loop_ok rnd junk J (length buf) [] buf h1 h2 h3 ltac:(constructor) eq_refl ltac:(change (zlen (@nil Z)) with 0; lia) L1 L2 L3) as H. cbn [app] in H. change (zlen (@nil Z)) with 0 in H. now rewrite H. Qed.

(** ---------- the file ---------- *)
Lemma read_ok : forall rs p l buf c, Forall (whole (zlen buf)) rs -> 0 < zlen buf -> zlen buf mod 128 = 0 -> bytes l -> rep p [] c -> zlen p + zlen l < 2 ^ 64 -> zlen l < zlen rs ->
  exists full r c', read_loop rs (p ++ l) buf (zlen p) c = Ret (Some c') /\ p ++ l = full ++ r /\ rep full r c'.
Proof.
  induction rs as [|a rs IH]; intros p l buf c Fr Lb Mb B R Hl Hr; [pose proof (zlen_nonneg l); change (zlen []) with 0 in Hr; lia|].
  inversion Fr as [|? ? (k & -> & Pk & Hk) Fr']; subst. cbn [read_loop]. rewrite zdrop_app_exact. pose proof (zlen_nonneg l) as Pl.
  unfold clamp. replace (Z.max 0 (Z.min k (zlen buf))) with (Z.min k (zlen buf)) by lia. set (m := Z.min k (zlen buf)). assert (Hm : 0 < m <= zlen buf) by (unfold m; lia).
  assert (Mm : m mod 128 = 0) by (unfold m; destruct (Z.min_spec k (zlen buf)) as [[? ->]|[? ->]]; lia). clearbody m.
  destruct (Z_le_dec (zlen l) m) as [S|S].
  - rewrite (ztake_all m l) by lia. rewrite zwrites_ok by lia. change (ztake 0 buf) with (@nil Z). cbn [app]. rewrite bind_ret. destruct (Z.eqb_spec (zlen l) 0) as [E|E].
    + apply zlen_0 in E. subst l. exists p, [], c. split; [reflexivity|]. split; [reflexivity|exact R].
    + destruct (update_ok [] l (zdrop (0 + zlen l) buf) p [] c B R (or_introl eq_refl)) as (f & r & c' & E1 & Ed & Em & R1); [change (zlen []) with 0; lia|]. cbn [app] in E1, Ed. change (zlen (@nil Z)) with 0 in E1.
      replace (Z.to_nat (zlen l)) with (length l) by (unfold zlen; lia). rewrite E1, bind_ret. destruct rs as [|a rs]; [revert Hr; zl; lia|]. inversion Fr' as [|? ? (k2 & -> & Pk2 & _) _]; subst. cbn [read_loop].
      rewrite (zdrop_all _ (p ++ l)) by (zl; lia). replace (ztake (clamp k2 _) []) with (@nil Z) by (unfold ztake; symmetry; apply firstn_nil). rewrite zwrites_ok by (change (zlen []) with 0; zpos; lia). rewrite bind_ret. change (zlen (@nil Z) =? 0) with true. cbv iota.
      exists f, r, c'. split; [reflexivity|]. split; [exact Ed|exact R1].
  - destruct (zsplit m l) as (l1 & l2 & -> & L1); [lia|]. apply bytes_app in B as [B1 B2]. replace (ztake m (l1 ++ l2)) with l1 by (rewrite <- L1; symmetry; apply ztake_app_exact). rewrite zwrites_ok by lia. change (ztake 0 buf) with (@nil Z). cbn [app]. rewrite bind_ret. rewrite L1. replace (m =? 0) with false by lia.
    revert Hl Hr. zl. intros Hl Hr.
    destruct (update_ok [] l1 (zdrop (0 + m) buf) p [] c B1 R (or_introl eq_refl)) as (f & r & c' & E1 & Ed & Em & R1); [change (zlen []) with 0; zpos; lia|]. cbn [app] in E1, Ed. change (zlen (@nil Z)) with 0 in E1.
    rewrite L1 in E1. replace (length l1) with (Z.to_nat m) in E1 by (unfold zlen in L1; lia). rewrite E1, bind_ret. rewrite (Em ltac:(rewrite L1; exact Mm) eq_refl) in *. rewrite app_nil_r in Ed. subst f.
    destruct (IH (p ++ l1) l2 (l1 ++ zdrop (0 + m) buf) c') as (full & r2 & c2 & E2 & Ed2 & R2); auto.
    + replace (zlen (l1 ++ zdrop (0 + m) buf)) with (zlen buf); [exact Fr'|]. zl. rewrite zlen_zdrop by lia. lia.
    + zl. rewrite zlen_zdrop by lia. lia.
    + zl. rewrite zlen_zdrop by lia. replace (zlen l1 + (zlen buf - (0 + m))) with (zlen buf) by lia. exact Mb.
    + zl. lia.
    + lia.
    + exists full, r2, c2. split; [|split; [now rewrite app_assoc|exact R2]]. rewrite <- E2. rewrite <- app_assoc. f_equal. zl. lia.
Qed.
Lemma hash_ok rs content c buf outbuf : Forall (whole 4096) rs -> zlen buf = 4096 -> zlen (ch c) = 64 -> zlen (cx c) = 256 -> 129 <= zlen outbuf -> bytes content -> zlen content < 2 ^ 64 -> zlen content < zlen rs ->
  sha512_hash true rs content c buf outbuf = Ret (1, hex_of (sha512 content) ++ 0 :: zdrop 129 outbuf).
Proof.
  intros Fr Lb Lh Lx Lo B Hl Hr. unfold sha512_hash. cbn [negb]. destruct (init_ok c Lh Lx) as (c0 & E0 & R0). rewrite E0, bind_ret.
  destruct (read_ok rs [] content buf c0) as (f & r & c1 & E1 & Ed & R1); auto; try (rewrite Lb; auto; lia); try (change (zlen []) with 0; lia).
  cbn [app] in E1, Ed. change (zlen (@nil Z)) with 0 in E1. rewrite E1, bind_ret. destruct (end_ok f r c1 R1) as (c2 & E2 & H2). rewrite E2, bind_ret, H2, <- Ed.
  rewrite <- (app_nil_r (sha512 content)) at 1. rewrite to_str_ok; [reflexivity|apply sha512_bytes|apply sha512_len|exact Lo].
Qed.
Lemma file_ok rs1 rs2 junk content c buf hash1 hash2 h jh jx : Forall (whole 4096) rs1 -> Forall moves rs2 -> content <> [] -> bytes content -> zlen content < 2 ^ 64 - 17 ->
  zlen content < zlen rs1 -> zlen content <= zlen rs2 -> zlen buf = 4096 -> zlen (ch c) = 64 -> zlen (cx c) = 256 -> zlen hash1 = 129 -> zlen hash2 = 129 -> zlen h = 64 -> zlen jh = 64 -> zlen jx = 256 ->
  test_file true true rs1 rs2 (zlen content) (Some junk) content c buf hash1 hash2 h jh jx = Ret (0, Hash (hex_of (sha512 content))).
Proof.
  intros F1 F2 Ne B Ll L1 L2 Lb Lch Lcx Lh1 Lh2 Lh Ljh Ljx. unfold test_file. rewrite hash_ok by (auto; lia). rewrite bind_ret.
  destruct (fromfile_all junk rs2 content Ne Ll F2 L2) as (f & E & (hd & Lhd & ->)). rewrite E, bind_ret. cbn [so sb sz]. rewrite <- Lhd, zdrop_app_exact.
  rewrite crypto_hash_ok by (auto; lia). rewrite bind_ret, (zdrop_all 64 h), (zdrop_all 129 hash1) by lia. rewrite to_str_ok by (first [apply sha512_bytes|apply sha512_len|lia]). rewrite bind_ret, (zdrop_all 129 hash2) by lia.
  pose proof (hex_nz _ (sha512_bytes content)) as N. destruct (cstreq_ok (hex_of (sha512 content)) (hex_of (sha512 content)) [] [] N N) as (e & Ee & He). rewrite Ee, bind_ret. rewrite (proj2 He eq_refl).
  pose proof (strlen_0 (hex_of (sha512 content)) [] N) as Hs. rewrite Hs, bind_ret. now rewrite ztake_app_exact.
Qed.
Lemma file_empty k rs1 opened2 rs2 mal c buf hash1 hash2 h jh jx : zlen (ch c) = 64 -> zlen (cx c) = 256 -> zlen hash1 = 129 ->
  test_file true opened2 (Xfer k :: rs1) rs2 0 mal [] c buf hash1 hash2 h jh jx = UB.
Proof.
  intros Lh Lx L1. unfold test_file, sha512_hash. cbn [negb]. destruct (init_ok c Lh Lx) as (c0 & E0 & R0). rewrite E0, bind_ret. cbn [read_loop].
  change (zdrop 0 []) with (@nil Z). replace (ztake _ []) with (@nil Z) by (unfold ztake; symmetry; apply firstn_nil). rewrite zwrites_ok by (change (zlen []) with 0; zpos; lia). rewrite bind_ret. change (zlen (@nil Z) =? 0) with true. cbv iota. rewrite bind_ret.
  destruct (end_ok [] [] c0 R0) as (c2 & E2 & H2). rewrite E2, bind_ret, H2. cbn [app]. rewrite <- (app_nil_r (sha512 [])). rewrite to_str_ok by (first [apply sha512_bytes|apply sha512_len|lia]). reflexivity.
Qed.
