(** C46 for updates of any sizes; C105: the file mode for any reads. *)
From Verif Require Import Base Bits Cstr M_hex S_hex P_hex M_sha512 S_hash P_hash S_sha512 P_crc32 P_sha512 P_sha512b M_spfile S_shapieces D_sha512.

Ltac Zify.zify_post_hook ::= Z.div_mod_to_equations.
Lemma full_rest l : l = full_part l ++ rest l.
Proof. symmetry. apply ztake_zdrop. Qed.
Lemma full_len l : zlen (full_part l) = 128 * Z.of_nat (Z.to_nat (zlen l / 128)).
Proof. pose proof (zlen_nonneg l). unfold full_part. rewrite zlen_ztake by lia. lia. Qed.
Lemma rest_len l : zlen (rest l) = zlen l mod 128.
Proof. pose proof (zlen_nonneg l). unfold rest. rewrite zlen_zdrop by lia. lia. Qed.
Definition rep (full x : list Z) (n : Z) (c : ctx) : Prop :=
  exists k, zlen full = 128 * Z.of_nat k /\ zlen x = 256 /\ bytes x /\ cx c = x /\ cb c = n mod 2 ^ 64 /\ ch c = enc (fold_left sha_compress (blocks 128 k full) sha_IV).
Lemma init_any c : zlen (ch c) = 64 -> zlen (cx c) = 256 -> exists c', sha512_init c = Ret c' /\ rep [] (zrepeat 0 256) 0 c'.
Proof.
  intros H1 H2. destruct (init_ok c H1 H2) as (c' & E & (n & L & Lr & Br & Ex & Eb & Hb & Eh)). exists c'. split; [exact E|]. exists n.
  change (zlen (@nil Z)) with 0 in *. split; [exact L|]. split; [reflexivity|]. split; [apply zeros_bytes|]. split; [exact Ex|]. split; [rewrite Eb; reflexivity|exact Eh].
Qed.
Lemma update_any p l q full x n c : bytes l -> rep full x n c ->
  exists c', sha512_update (S (length l)) c (p ++ l ++ q) (zlen p) (zlen l) = Ret c' /\ rep (full ++ full_part l) (rest l ++ zdrop (zlen (rest l)) x) (n + zlen l) c'.
Proof.
  intros B (k0 & Lf & Lx & Bx & Ex & Eb & Eh). unfold sha512_update. rewrite Eh. set (z := fold_left _ _ sha_IV). destruct iv_ok as (_ & Li & Wi).
  assert (Lz : length z = 8%nat) by now apply fold_len. assert (Wz : Forall w64 z) by now apply fold_w.
  pose proof (full_len l) as L1. set (k := Z.to_nat (zlen l / 128)) in *. pose proof (zlen_nonneg l) as Pl. pose proof (rest_len l) as Hl2. pose proof (full_rest l) as El.
  set (l1 := full_part l) in *. set (l2 := rest l) in *. clearbody l1 l2.
  assert (B12 : bytes l1 /\ bytes l2) by (rewrite El in B; now apply bytes_app in B). destruct B12 as [B1 B2].
  assert (Ln : zlen l = zlen l1 + zlen l2) by (rewrite El; zl; lia).
  assert (Eb' : p ++ l ++ q = p ++ l1 ++ (l2 ++ q)) by (rewrite El; now rewrite <- app_assoc).
  pose proof (hashblocks_ok k p l1 (l2 ++ q) (zlen l2) z B1 L1 ltac:(lia) Lz Wz (S (length l))) as H. rewrite <- Eb', <- Ln in H. rewrite H by (unfold k, zlen in *; lia). rewrite bind_ret. cbv zeta.
  change 127 with (2 ^ 7 - 1). rewrite land_mask by lia. change (2 ^ 7) with 128. rewrite <- Hl2.
  replace (Z.to_nat (zlen l2)) with (length l2) by (unfold zlen; lia).
  destruct (zsplit (zlen l2) x) as (x1 & x2 & Exx & Lx1); [lia|]. rewrite Ex, Exx.
  pose proof (copy_loop (fun i => zread (p ++ l ++ q) (zlen p + zlen l - zlen l2 + i)) l2 [] x1 x2 Lx1) as C. change (zlen (@nil Z)) with 0 in C. cbn [app] in C. rewrite C.
  2:{ intros j Hj. rewrite (zread_ok 0) by (zl; zpos; lia). f_equal. rewrite Eb'. rewrite znth_app2 by (zpos; lia). rewrite znth_app2 by (zpos; lia). rewrite znth_app1 by lia. f_equal. lia. }
  rewrite bind_ret. eexists. split; [reflexivity|]. replace (zdrop (zlen l2) (x1 ++ x2)) with x2 by (rewrite <- Lx1; symmetry; apply zdrop_app_exact).
  assert (Bx2 : bytes x2) by (rewrite Exx in Bx; apply bytes_app in Bx; tauto). apply (f_equal zlen) in Exx. revert Exx. zl. intros Exx.
  exists (k0 + k)%nat. cbn [ch cx cb]. split; [zl; lia|]. split; [zl; lia|]. split; [apply bytes_app; auto|]. split; [reflexivity|]. split.
  - rewrite u64_eq, Eb. now rewrite Zplus_mod_idemp_l.
  - rewrite blocks_app by lia. rewrite fold_left_app. reflexivity.
Qed.
Lemma end_any full x n c : rep full x n c -> exists c', sha512_end c = Ret c' /\ ch c' = concat (map (be_bytes 8) (sha_blocks (full ++ last_blocks (n mod 2 ^ 64) x))).
Proof.
  intros (k0 & Lf & Lx & Bx & Ex & Eb & Eh). unfold sha512_end. cbv zeta. rewrite Eb, Ex, Eh. set (N := n mod 2 ^ 64). assert (HN : 0 <= N < 2 ^ 64) by (unfold N; lia). clearbody N.
  assert (Pt : Z.land N 127 = N mod 128) by (change 127 with (2 ^ 7 - 1); now rewrite land_mask by lia). rewrite Pt. unfold last_blocks. cbv zeta.
  set (m := N mod 128). assert (Hm : 0 <= m < 128) by (unfold m; lia). clearbody m.
  set (size := 256 - 128 * _). assert (Hs : size = if m <? 112 then 128 else 256) by (unfold size; destruct (m <? 112); reflexivity). rewrite <- Hs. clearbody size.
  assert (H2 : (size = 128 /\ m < 112 \/ size = 256)) by (destruct (Z.ltb_spec m 112); auto).
  destruct (zsplit m x) as (a & x1 & Ex1 & La); [lia|]. destruct x1 as [|y x1]; [exfalso; apply (f_equal zlen) in Ex1; revert Ex1; zl; lia|].
  assert (Lx1 : zlen x1 = 255 - m) by (apply (f_equal zlen) in Ex1; revert Ex1; zl; lia).
  destruct (zsplit (size - 10 - m) x1) as (b & x2 & Ex2 & Lb); [lia|]. destruct x2 as [|y2 x2]; [exfalso; apply (f_equal zlen) in Ex2; revert Ex2; zl; lia|].
  assert (Lx2 : zlen x2 = 264 - size) by (apply (f_equal zlen) in Ex2; revert Ex2; zl; lia).
  destruct (zsplit 8 x2) as (o & q & Ex3 & Lo); [lia|].
  replace (ztake m x) with a by (rewrite Ex1, <- La; symmetry; apply ztake_app_exact).
  replace (zdrop (m + 1) x) with x1 by (rewrite Ex1; replace (m + 1) with (zlen (a ++ [y])) by (zl; lia); change (a ++ y :: x1) with (a ++ [y] ++ x1); rewrite app_assoc; symmetry; apply zdrop_app_exact).
  replace (ztake (size - 10 - m) x1) with b by (rewrite Ex2, <- Lb; symmetry; apply ztake_app_exact).
  rewrite Ex1. rewrite zwrite_at by lia. rewrite bind_ret. rewrite Ex2. replace (a ++ 128 :: b ++ y2 :: x2) with ((a ++ [128] ++ b) ++ y2 :: x2) by (now rewrite <- !app_assoc).
  rewrite zwrite_at by (zl; lia). rewrite bind_ret. set (hi := u8 _). assert (Ehi : hi = N / 2 ^ 61) by (unfold hi; rewrite Z.shiftr_div_pow2 by lia; rewrite u8_id; lia). assert (Bhi : byte hi) by (unfold byte; lia). clearbody hi.
  rewrite Ex3. replace ((a ++ [128] ++ b) ++ hi :: o ++ q) with ((a ++ [128] ++ b ++ [hi]) ++ o ++ q) by (rewrite <- !app_assoc; reflexivity).
  replace (size - 8) with (zlen (a ++ [128] ++ b ++ [hi])) by (zl; lia). rewrite ts64_ok; [|lia|apply u64_w]. rewrite bind_ret.
  replace (be_bytes 8 (u64 (Z.shiftl N 3))) with (be_bytes 8 (8 * N)).
  2:{ rewrite Z.shiftl_mul_pow2 by lia. rewrite u64_eq. change (2 ^ 3) with 8. rewrite (Z.mul_comm N). unfold be_bytes. f_equal. change (2 ^ 64) with (256 ^ Z.of_nat 8). now rewrite le_bytes_mod'. }
  set (lb := be_bytes 8 (8 * N)). assert (Llb : zlen lb = 8) by apply be_bytes_len. rewrite <- Ehi. set (t := a ++ [128] ++ b ++ [hi] ++ lb).
  replace ((a ++ [128] ++ b ++ [hi]) ++ lb ++ q) with (t ++ q) by (unfold t; rewrite <- !app_assoc; reflexivity).
  assert (Lt : zlen t = size) by (unfold t; zl; lia).
  assert (Bab : bytes a /\ bytes b). { rewrite Ex1 in Bx. apply bytes_app in Bx as [Ba Bx]. split; [exact Ba|]. inversion Bx as [|? ? _ Bx1]; subst. apply bytes_app in Bx1. tauto. }
  assert (Bt : bytes t). { unfold t. repeat (apply bytes_app; split); try tauto; try apply be_bytes_bytes; repeat constructor; try lia; apply Bhi. }
  set (k := Z.to_nat (size / 128)). assert (Hk : size = 128 * Z.of_nat k /\ (k < 3)%nat) by (unfold k; lia). destruct iv_ok as (_ & Li & Wi).
  pose proof (hashblocks_ok k [] t q 0 (fold_left sha_compress (blocks 128 k0 full) sha_IV) Bt ltac:(lia) ltac:(lia) (fold_len _ _ Li) (fold_w _ _ Wi) 3 ltac:(lia)) as H.
  cbn [app] in H. change (zlen (@nil Z)) with 0 in H. rewrite Lt, Z.add_0_r in H. rewrite H, bind_ret. eexists. split; [reflexivity|]. cbn [ch]. unfold enc. do 2 f_equal.
  unfold sha_blocks. replace (Z.to_nat (zlen (full ++ t) / 128)) with (k0 + k)%nat by (zl; lia). rewrite blocks_app by lia. now rewrite fold_left_app.
Qed.
Lemma updates_any : forall calls full x n c, rep full x n c -> Forall (fun c => bytes (chunk c)) calls ->
  exists c', updates c calls = Ret c' /\
    rep (full ++ concat (map full_part (map chunk calls))) (fold_left (fun x l => rest l ++ zdrop (zlen (rest l)) x) (map chunk calls) x) (n + zlen (concat (map chunk calls))) c'.
Proof.
  induction calls as [|[[p l] q] calls IH]; intros full x n c R F; cbn [map concat updates fold_left].
  - exists c. split; [reflexivity|]. change (zlen (@nil Z)) with 0. now rewrite app_nil_r, Z.add_0_r.
  - change (chunk (p, l, q)) with l in *. inversion F as [|? ? B F']; subst. change (chunk (p, l, q)) with l in B.
    destruct (update_any p l q full x n c B R) as (c1 & -> & R1). rewrite bind_ret. destruct (IH _ _ _ _ R1 F') as (c2 & E2 & R2). exists c2. split; [exact E2|].
    rewrite app_assoc. zl. rewrite Z.add_assoc. exact R2.
Qed.

(** C46 without the chunking rule: what sha512_end gives after any updates *)
Theorem c46_any_sizes c calls : zlen (ch c) = 64 -> zlen (cx c) = 256 -> Forall (fun c => bytes (chunk c)) calls -> sha_run c calls = Ret (digest (map chunk calls)).
Proof.
  intros H1 H2 F. unfold sha_run. destruct (init_any c H1 H2) as (c1 & -> & R1). rewrite bind_ret. destruct (updates_any calls _ _ _ _ R1 F) as (c2 & -> & R2). rewrite bind_ret.
  destruct (end_any _ _ _ _ R2) as (c3 & -> & E3). rewrite bind_ret, E3. reflexivity.
Qed.
Print Assumptions c46_any_sizes.
(** and if the rule is kept, that is the SHA-512 of the data *)
Theorem c46_digest_allowed ls : Forall bytes ls -> allowed ls -> zlen (concat ls) < 2 ^ 64 -> digest ls = sha512 (concat ls).
Proof.
  intros F A L. set (c := mkCtx (zrepeat 0 64) (zrepeat 0 256) 0). set (calls := map (fun l => (@nil Z, l, @nil Z)) ls).
  assert (E : map chunk calls = ls) by (unfold calls; rewrite map_map; cbn; apply map_id).
  assert (F' : Forall (fun c => bytes (chunk c)) calls) by (apply Forall_forall; intros y Hy; apply in_map_iff in Hy as (l & <- & Hl); rewrite Forall_forall in F; now apply F).
  pose proof (c46_any_sizes c calls eq_refl eq_refl F') as H1. pose proof (run_ok c calls eq_refl eq_refl F') as H2. rewrite E in H1, H2. rewrite H2 in H1 by auto. now injection H1 as <-.
Qed.
Print Assumptions c46_digest_allowed.
(** why the rule is needed: of a chunk that is followed by one with at least as long a rest, the bytes behind its
    last whole block have no influence on the result *)
Theorem c46_rest_ignored : forall pre p a a' b l post, zlen p mod 128 = 0 -> zlen a = zlen a' -> zlen a < 128 -> zlen b mod 128 = 0 -> zlen a <= zlen l < 128 ->
  digest (pre ++ [p ++ a; b ++ l] ++ post) = digest (pre ++ [p ++ a'; b ++ l] ++ post).
Proof.
  intros pre p a a' b l post Hp La La1 Hb Hl.
  assert (S : forall p a, zlen p mod 128 = 0 -> zlen a < 128 -> full_part (p ++ a) = p /\ rest (p ++ a) = a).
  { clear. intros p a Hp Ha. pose proof (zlen_nonneg p). pose proof (zlen_nonneg a). unfold full_part, rest. replace (128 * (zlen (p ++ a) / 128)) with (zlen p) by (zl; lia). split; [apply ztake_app_exact|apply zdrop_app_exact]. }
  destruct (S p a Hp La1) as [F1 R1]. destruct (S p a' Hp ltac:(lia)) as [F2 R2]. destruct (S b l Hb ltac:(lia)) as [F3 R3].
  unfold digest. do 4 f_equal.
  - rewrite !map_app. cbn [map]. now rewrite F1, F2.
  - f_equal.
    + f_equal. rewrite !concat_app. cbn [concat app]. zl. lia.
    + unfold scratch. rewrite !fold_left_app. cbn [app fold_left]. set (x := fold_left _ pre _). f_equal. rewrite R1, R2, R3. f_equal. 
      assert (Z1 : forall u : list Z, zlen u <= zlen l -> zdrop (zlen l) (u ++ zdrop (zlen u) x) = zdrop (zlen l) x).
      { intros u Hu. rewrite zdrop_app2 by lia. rewrite zdrop_zdrop by (zpos; lia). f_equal. lia. }
      rewrite !Z1 by lia. reflexivity.
Qed.
Print Assumptions c46_rest_ignored.
Example c46_any_ex : sha_run (mkCtx (zrepeat 5 64) (zrepeat 5 256) 3) [([], [97], []); ([1], zrepeat 7 130, []); ([], [99], [])] = Ret (digest [[97]; zrepeat 7 130; [99]]) /\
  scratch [[97]; zrepeat 7 130; [99]] = [99; 7] ++ zrepeat 0 254.
Proof. split; vm_compute; reflexivity. Qed.
(** "ab" and "cb" in two updates each: the same result *)
Example c46_rest_ignored_ex : let h a := sha_run (mkCtx (zrepeat 5 64) (zrepeat 5 256) 3) [([], [a], []); ([], [98], [])] in h 97 = h 99.
Proof. vm_compute. reflexivity. Qed.
