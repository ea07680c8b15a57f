(** C57, C105, C106 continued: precisions of any digits, a failing read in the hash of a file, and failing vectors of
    the hex test. *)
From Verif Require Import Base Bits Cstr S_num L_num M_num P_num M_format S_format S_fmtw P_format P_format2 P_format3 P_format4 P_fmtw T_format T_format2
  M_hex S_hex P_hex M_hashtest P_hashtest M_sha512 S_hash P_hash S_sha512 P_crc32 P_sha512 P_sha512b M_spfile P_spfile M_shatest D_shatest P_shatest D_sha512 S_shapieces T_shapieces T_shafile.
From Verif Require P_crcmain.

(** C57, refuted for precisions of several digits: the number has as many digits as the sum of the first digit and ten
    times the place from the end of every other digit says; a sum of 0 is no precision, one the number buffer has no
    room for is undefined; and it is less than the precision C takes *)
Theorem c57_precision_digits_refuted cv ps v r cbuf : in_type Mnone cv v -> digits_ok 10 ps -> ps <> [] -> ulz_precision ps < 2 ^ 64 -> zlen cbuf = 32 ->
  let w := ulz_precision ps in let fmt := 37 :: 46 :: map (Z.add 48) ps ++ conv_fmt cv :: 0 :: r in
  (w = 0 -> exists s, number_text 1 cv v s /\ gives fmt [VInt v] cbuf s) /\
  (1 <= w -> w + b2z (v <? 0) <= 31 -> exists ds, zlen ds = w /\ digits_ok (conv_base cv) ds /\ pos_value (conv_base cv) ds = Z.abs v mod conv_base cv ^ w /\
     gives fmt [VInt v] cbuf (sign_str (v <? 0) ++ map (digit_char (conv_lower cv)) ds)) /\
  (32 <= w + b2z (v <? 0) -> (forall n, ulz_snprintf None n fmt [VInt v] cbuf = UB) /\ forall d size, 1 <= size <= zlen d -> ulz_snprintf (Some d) size fmt [VInt v] cbuf = UB) /\
  (forall d q, ps = d :: q -> q <> [] -> 1 <= d -> w < pos_value 10 ps).
Proof.
  intros T D N W C w fmt. destruct (item_num_ok Mnone cv v T) as (_ & Ng & Mg). replace (item_num Mnone cv v) with (int_num cv v) in * by now destruct cv.
  destruct (int_text_digits cv ps v r cbuf D N W C) as (H0 & H1 & H2). rewrite Ng, Mg in *. fold w fmt in H0, H1, H2. split; [|split; [|split]].
  - intros E. specialize (H0 E). destruct (int_text cv v r cbuf C) as (ds & R & Er). rewrite Ng, Mg in *. rewrite <- H0 in Er. eexists. split; [|apply gives_run, Er].
    exists ds. split; [exact R|]. assert (1 <= zlen ds). { destruct R as (_ & _ & [-> | (x & y & -> & _)]); rewrite zlen_cons; zpos; lia. } replace (Z.max 0 (1 - zlen ds)) with 0 by lia. reflexivity.
  - intros W1 W2. destruct (H1 W1 W2) as (ds & Dd & L & P & E). exists ds. repeat (split; [assumption|]). now apply gives_run.
  - intros W1. specialize (H2 W1). unfold ulz_snprintf. split; [intros n|intros d size Hs]; rewrite P_format.run_ok by (exact I || exact Hs); now rewrite H2.
  - intros d q E Q D1. unfold w. rewrite E in *. now apply precision_lt.
Qed.
Print Assumptions c57_precision_digits_refuted.
(** "%.123d" of 5 prints 21 digits, "%.00d" one, and "%.912d" 19 *)
Example c57_precision_ex : ulz_precision [1; 2; 3] = 21 /\ ulz_precision [0; 0] = 0 /\ ulz_precision [9; 1; 2] = 19 /\ ulz_precision [9; 9; 1] = 99 /\
  ulz_snprintf (Some (zrepeat 9 30)) 30 [37; 46; 49; 50; 51; 100; 0] [VInt (-5)] (zrepeat 0 32) = Ret (22, Some (45 :: zrepeat 48 20 ++ 53 :: 0 :: zrepeat 9 7)).
Proof. repeat split; vm_compute; reflexivity. Qed.

(** C105: a read that fails, after reads of any sizes: sha512_hash gives 0 and leaves the text alone *)
Lemma read_err : forall ks buf full x pos c content, Forall (fun k => 1 <= k <= zlen buf) ks -> 0 <= pos -> pos + fold_right Z.add 0 ks <= zlen content -> bytes content -> T_shapieces.rep full x pos c ->
  read_loop (map Xfer ks ++ [IoErr]) content buf pos c = Ret None.
Proof.
  induction ks as [|k ks IH]; intros buf full x pos c content F P S B R; cbn [map app read_loop]; [reflexivity|]. inversion F as [|? ? Fk F']; subst. cbn [fold_right] in S.
  assert (S0 : 0 <= fold_right Z.add 0 ks). { clear - F'. induction F' as [|y l Hy _ IHl]; cbn [fold_right]; lia. }
  unfold clamp. replace (Z.max 0 (Z.min k (zlen buf))) with k by lia. set (d := ztake k (zdrop pos content)). assert (Ld : zlen d = k) by (unfold d; rewrite zlen_ztake; [lia|rewrite zlen_zdrop by lia; lia]).
  assert (Bd : bytes d) by (now apply P_crcmain.bytes_ztake, P_crcmain.bytes_zdrop).
  rewrite zwrites_ok by lia. change (ztake 0 buf) with (@nil Z). cbn [app]. rewrite bind_ret. replace (zlen d =? 0) with false by lia.
  destruct (update_any [] d (zdrop (0 + zlen d) buf) full x pos c Bd R) as (c1 & E1 & R1). cbn [app] in E1. change (zlen (@nil Z)) with 0 in E1.
  replace (Z.to_nat (zlen d)) with (length d) by (unfold zlen; lia). rewrite E1, bind_ret. rewrite Ld in *.
  eapply IH; [|lia|lia|exact B|exact R1]. eapply Forall_impl; [|exact F']. intros y Hy. cbn beta in *. rewrite zlen_app, Ld, zlen_zdrop by lia. lia.
Qed.
Theorem c105_read_error ks content c buf outbuf : Forall (fun k => 1 <= k <= 4096) ks -> fold_right Z.add 0 ks <= zlen content -> bytes content ->
  zlen buf = 4096 -> zlen (ch c) = 64 -> zlen (cx c) = 256 -> sha512_hash true (map Xfer ks ++ [IoErr]) content c buf outbuf = Ret (0, outbuf).
Proof.
  intros F S B Lb Lh Lx. unfold sha512_hash. cbn [negb]. destruct (init_any c Lh Lx) as (c0 & E0 & R0). rewrite E0, bind_ret. rewrite <- Lb in F. change (zlen (@nil Z)) with 0 in R0.
  rewrite (read_err ks buf _ _ 0 c0 content F ltac:(lia) ltac:(lia) B R0). reflexivity.
Qed.
Print Assumptions c105_read_error.
Example c105_read_error_ex : let c := mkCtx (zrepeat 1 64) (zrepeat 2 256) 0 in
  sha512_hash true [Xfer 2; IoErr] [1; 2; 3] c (zrepeat 3 4096) [7] = Ret (0, [7]).
Proof. vm_compute. reflexivity. Qed.

(** C106: the hex test for any vectors: ret counts those whose text is another one, tests all of them *)
Theorem c106_raw2hex_counts vs buf r t : Forall (fun v => bytes (fst v) /\ nz (snd v) /\ 2 * zlen (fst v) + 1 <= zlen buf) vs ->
  hex_tests buf vs r t = Ret (r + zlen (filter (fun v => if list_eq_dec Z.eq_dec (hex_of (fst v)) (snd v) then false else true) vs), t + zlen vs).
Proof.
  revert buf r t. induction vs as [|[x y] vs IH]; intros buf r t F; [cbn [hex_tests filter]; change (zlen (@nil (list Z * list Z))) with 0; now rewrite !Z.add_0_r|]. inversion F as [|? ? (B & Ny & L) F']; subst. cbn [hex_tests filter fst snd] in *. unfold hex_check.
  rewrite raw2hex_ok by auto. rewrite bind_ret. pose proof (hex_nz _ B) as N. destruct (cstreq_ok (hex_of x) y (zdrop (2 * zlen x + 1) buf) [] N Ny) as (e & Ee & He). rewrite Ee, !bind_ret.
  rewrite IH by (eapply Forall_impl; [|exact F']; intros v (V1 & V2 & V3); split; [exact V1|]; split; [exact V2|]; zpos; zl; rewrite hex_len, zlen_zdrop by lia; lia).
  rewrite (zlen_cons (x, y) vs). destruct (list_eq_dec Z.eq_dec (hex_of x) y) as [Q|Q].
  - rewrite (proj2 He Q). f_equal. f_equal; lia.
  - destruct e; [exfalso; apply Q, He; reflexivity|]. rewrite zlen_cons. f_equal. f_equal; lia.
Qed.
Print Assumptions c106_raw2hex_counts.
Example c106_counts_ex : hex_tests (zrepeat 5 33) [([1; 2], [48; 49; 48; 51]); ([3], [48; 51]); ([4], [])] 0 0 = Ret (2, 3).
Proof. vm_compute. reflexivity. Qed.
