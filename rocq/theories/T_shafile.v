(** C105: the file mode for any reads. *)
From Verif Require Import Base Bits Cstr M_hex S_hex P_hex M_sha512 S_hash P_hash S_sha512 P_crc32 P_sha512 P_sha512b M_stringptr M_spfile P_spfile M_shatest D_shatest P_shatest D_sha512 S_shapieces T_shapieces.
Ltac Zify.zify_post_hook ::= Z.div_mod_to_equations.

Notation rep := T_shapieces.rep.
Lemma read_any : forall ks l ps buf pre full x c, deliver (zlen buf) ks l ps -> bytes l -> rep full x (zlen pre) c ->
  exists c', read_loop (map Xfer ks) (pre ++ l) buf (zlen pre) c = Ret (Some c') /\
    rep (full ++ concat (map full_part ps)) (fold_left (fun x l => rest l ++ zdrop (zlen (rest l)) x) ps x) (zlen (pre ++ l)) c'.
Proof.
  intros ks l ps buf. revert ks l ps buf. intros ks l ps buf pre full x c D. revert buf pre full x c D. 
  intros buf. remember (zlen buf) as n eqn:En. intros pre full x c D. revert buf En pre full x c.
  induction D as [k ks|k ks p q ps Hp Hk D IH]; intros buf En pre full x c B R; cbn [map read_loop].
  - rewrite app_nil_r. rewrite (zdrop_all _ pre) by lia. replace (ztake _ []) with (@nil Z) by (unfold ztake; symmetry; apply firstn_nil). rewrite zwrites_ok by (change (zlen []) with 0; zpos; lia). rewrite bind_ret. change (zlen (@nil Z) =? 0) with true. cbv iota.
    exists c. split; [reflexivity|]. cbn [map concat fold_left]. now rewrite app_nil_r.
  - rewrite zdrop_app_exact. pose proof (zlen_nonneg q). rewrite zlen_app in Hk.
    replace (ztake (clamp k (zlen buf)) (p ++ q)) with p.
    2:{ unfold clamp. rewrite <- En. destruct (Z_le_dec (zlen (p ++ q)) (Z.max 0 (Z.min k n))) as [G|G]; revert G; zl; intros G.
        - rewrite ztake_all by (zl; lia). assert (q = []) by (apply zlen_0; lia). subst q. now rewrite app_nil_r.
        - replace (Z.max 0 (Z.min k n)) with (zlen p) by lia. symmetry. apply ztake_app_exact. }
    apply bytes_app in B as [B1 B2]. rewrite zwrites_ok by lia. change (ztake 0 buf) with (@nil Z). cbn [app]. rewrite bind_ret. replace (zlen p =? 0) with false by lia.
    destruct (update_any [] p (zdrop (0 + zlen p) buf) full x (zlen pre) c B1 R) as (c1 & E1 & R1). cbn [app] in E1. change (zlen (@nil Z)) with 0 in E1.
    replace (Z.to_nat (zlen p)) with (length p) by (unfold zlen; lia). rewrite E1, bind_ret.
    replace (zlen pre + zlen p) with (zlen (pre ++ p)) in * by (zl; lia).
    destruct (IH (p ++ zdrop (0 + zlen p) buf) ltac:(zl; rewrite zlen_zdrop by lia; lia) (pre ++ p) _ _ _ B2 R1) as (c2 & E2 & R2).
    exists c2. rewrite <- app_assoc in E2. split; [exact E2|]. cbn [map concat fold_left]. rewrite (app_assoc full), (app_assoc pre). exact R2.
Qed.
Lemma deliver_concat n ks l ps : deliver n ks l ps -> l = concat ps.
Proof. induction 1; [reflexivity|]. cbn [concat]. now f_equal. Qed.
Lemma blocks_bytes ls : bytes (concat (map (be_bytes 8) ls)).
Proof. apply enc_bytes. Qed.
Lemma digest_len ls : zlen (digest ls) = 64.
Proof.
  unfold digest. fold (enc (sha_blocks (concat (map full_part ls) ++ last_blocks (zlen (concat ls) mod 2 ^ 64) (scratch ls)))). rewrite enc_len. unfold sha_blocks. destruct iv_ok as (_ & Li & _). unfold zlen. rewrite fold_len by exact Li. reflexivity.
Qed.
Lemma hash_any ks content ps c buf outbuf : deliver 4096 ks content ps -> zlen buf = 4096 -> zlen (ch c) = 64 -> zlen (cx c) = 256 -> 129 <= zlen outbuf -> bytes content ->
  sha512_hash true (map Xfer ks) content c buf outbuf = Ret (1, hex_of (digest ps) ++ 0 :: zdrop 129 outbuf).
Proof.
  intros D Lb Lh Lx Lo B. unfold sha512_hash. cbn [negb]. destruct (init_any c Lh Lx) as (c0 & E0 & R0). rewrite E0, bind_ret. rewrite <- Lb in D.
  destruct (read_any ks content ps buf [] [] (zrepeat 0 256) c0 D B R0) as (c1 & E1 & R1). cbn [app] in E1, R1. change (zlen (@nil Z)) with 0 in E1. rewrite E1, bind_ret.
  destruct (end_any _ _ _ _ R1) as (c2 & E2 & H2). rewrite E2, bind_ret, H2. rewrite (deliver_concat _ _ _ _ D). change (concat (map (be_bytes 8) _)) with (digest ps).
  rewrite <- (app_nil_r (digest ps)) at 1. rewrite to_str_ok; [reflexivity|apply blocks_bytes|apply digest_len|exact Lo].
Qed.
Lemma hex_inj a b : bytes a -> bytes b -> zlen a = zlen b -> hex_of a = hex_of b -> a = b.
Proof.
  intros Ba Bb L E. pose proof (zlen_nonneg a). pose proof (hex_roundtrip a [] (zrepeat 0 (zlen a)) Ba ltac:(rewrite zlen_zrepeat; lia)) as Ha. pose proof (hex_roundtrip b [] (zrepeat 0 (zlen a)) Bb ltac:(rewrite zlen_zrepeat; lia)) as Hb.
  rewrite E, Hb in Ha.
  injection Ha as _ Ha. assert (Z0 : forall n, zdrop n (zrepeat 0 n) = @nil Z) by (intros; unfold zdrop, zrepeat; apply skipn_all2; rewrite repeat_length; lia).
  rewrite <- L, Z0, !app_nil_r in Ha. now symmetry.
Qed.

(** the file test for any non-empty file, however the reads of sha512_hash cut it and whatever those of
    stringptr_fromfile do: the complaint comes exactly if the digest of the pieces is not the SHA-512 *)
Theorem c105_file_any ks ps rs2 junk content c buf hash1 hash2 h jh jx : deliver 4096 ks content ps -> Forall moves rs2 -> content <> [] -> bytes content -> zlen content < 2 ^ 64 - 17 ->
  zlen content <= zlen rs2 -> zlen buf = 4096 -> zlen (ch c) = 64 -> zlen (cx c) = 256 -> zlen hash1 = 129 -> zlen hash2 = 129 -> zlen h = 64 -> zlen jh = 64 -> zlen jx = 256 ->
  let r := test_file true true (map Xfer ks) rs2 (zlen content) (Some junk) content c buf hash1 hash2 h jh jx in
  (digest ps = sha512 content -> r = Ret (0, Hash (hex_of (sha512 content)))) /\ (digest ps <> sha512 content -> r = Ret (1, Complaint)).
Proof.
  intros D F2 Ne B Ll L2 Lb Lch Lcx Lh1 Lh2 Lh Ljh Ljx r. subst r. unfold test_file. rewrite (hash_any ks content ps) by (auto; lia). rewrite bind_ret.
  destruct (fromfile_all junk rs2 content Ne Ll F2 L2) as (f & E & (hd & Lhd & ->)). rewrite E, bind_ret. cbn [so sb sz]. rewrite <- Lhd, zdrop_app_exact.
  rewrite crypto_hash_ok by (auto; lia). rewrite bind_ret, (zdrop_all 64 h), (zdrop_all 129 hash1) by lia. rewrite to_str_ok by (first [apply sha512_bytes|apply sha512_len|lia]). rewrite bind_ret, (zdrop_all 129 hash2) by lia.
  pose proof (hex_nz _ (sha512_bytes content)) as N. pose proof (hex_nz (digest ps) (blocks_bytes _)) as N'. destruct (cstreq_ok (hex_of (digest ps)) (hex_of (sha512 content)) [] [] N' N) as (e & Ee & He). rewrite Ee, bind_ret.
  split; intros HD.
  - rewrite (proj2 He) by now rewrite HD. rewrite HD. rewrite (strlen_0 (hex_of (sha512 content)) [] N), bind_ret. now rewrite ztake_app_exact.
  - destruct e; [|reflexivity]. exfalso. apply HD. apply hex_inj; [apply blocks_bytes|apply sha512_bytes|now rewrite digest_len, sha512_len|now apply He].
Qed.
Print Assumptions c105_file_any.
(** 131 bytes in pieces of 128 and 3; the same in pieces of 3 and 128 *)
Example c105_file_any_ex : let l := zrepeat 7 128 ++ [97; 98; 99] in
  deliver 4096 [128; 9; 1] l [zrepeat 7 128; [97; 98; 99]] /\ deliver 4096 [3; 9999; 1] l [[7; 7; 7]; zrepeat 7 125 ++ [97; 98; 99]] /\
  digest [zrepeat 7 128; [97; 98; 99]] = sha512 l /\ digest [[7; 7; 7]; zrepeat 7 125 ++ [97; 98; 99]] <> sha512 l.
Proof.
  cbv zeta. split; [|split; [|split]].
  - apply (deliver_piece 4096 128 [9; 1] (zrepeat 7 128) [97; 98; 99]); [reflexivity|reflexivity|]. apply (deliver_piece 4096 9 [1] [97; 98; 99] []); [reflexivity|reflexivity|]. constructor.
  - apply (deliver_piece 4096 3 [9999; 1] [7; 7; 7] (zrepeat 7 125 ++ [97; 98; 99])); [reflexivity|reflexivity|]. rewrite <- (app_nil_r (zrepeat 7 125 ++ _)) at 1. apply (deliver_piece 4096 9999 [1] (zrepeat 7 125 ++ [97; 98; 99]) []); [reflexivity|reflexivity|]. constructor.
  - vm_compute. reflexivity.
  - intros H. apply (f_equal (fun l => znth 0 l 0)) in H. vm_compute in H. discriminate H.
Qed.
