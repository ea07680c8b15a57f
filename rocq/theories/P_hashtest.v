(** Proofs about the test programs of the hash functions. *)
From Coq Require Import String Ascii.
From Verif Require Import Base Bits Cstr M_hex S_num S_hex P_hex M_md5 S_hash P_hash S_md5 D_md5 P_md5run M_rc4 S_rc4 P_rc4 M_crc32 S_saber M_shatest P_shatest M_hashtest P_saber.
Ltac Zify.zify_post_hook ::= Z.div_mod_to_equations.

Lemma md5_len d : zlen (md5 d) = 16.
Proof. unfold md5. destruct (md5_blocks _ _) as [[[a b] c] e]. reflexivity. Qed.
Lemma md5_bytes d : bytes (md5 d).
Proof. unfold md5. destruct (md5_blocks _ _) as [[[a b] c] e]. repeat (apply bytes_app; split); apply le_bytes_bytes. Qed.
Lemma md5_check_ok j1 j2 hash ascii l q e r : zlen j1 = 64 -> zlen j2 = 64 -> 16 <= zlen hash -> 33 <= zlen ascii -> bytes l -> nz e ->
  exists b, md5_check j1 j2 hash ascii (l ++ q) (zlen l) (e ++ 0 :: r) = Ret b /\ (b = true <-> e = hex_of (md5 l)).
Proof.
  intros L1 L2 Lh La B N. unfold md5_check. pose proof (run_ok j1 [up [] l q; fin j2 hash] L1 ltac:(constructor; [exact B|constructor; [split; assumption|constructor]])) as H.
  unfold md5_run in H. cbn [md5_calls seen map app fst snd] in H. change (zlen (@nil Z)) with 0 in H. replace (Z.to_nat (zlen l)) with (length l) by (unfold zlen; lia).
  cbv zeta. destruct (md5_update _ _ _ _ _) as [m| |]; [|discriminate|discriminate]. rewrite bind_ret. rewrite bind_ret in H. destruct (md5_end j2 m hash) as [d| |]; [|discriminate|discriminate]. cbn [bind] in H. injection H as ->.
  rewrite bind_ret. unfold md5_to_str. pose proof (md5_len l) as Lm. pose proof (to_str_n (md5 l) (zdrop 16 hash) ascii (md5_bytes l) ltac:(lia)) as T. replace (length (md5 l)) with 16%nat in T by (unfold zlen in Lm; lia). rewrite T, bind_ret.
  destruct (cstreq_ok (hex_of (md5 l)) e (zdrop (2 * zlen (md5 l) + 1) ascii) r (hex_nz _ (md5_bytes l)) N) as (b & E & He). exists b. split; [exact E|]. rewrite He. split; congruence.
Qed.
Lemma md5str_check_ok j1 j2 raw ascii l q e r : zlen j1 = 64 -> zlen j2 = 64 -> zlen raw = 16 -> 33 <= zlen ascii -> bytes l -> nz e ->
  exists b, md5str_check j1 j2 raw ascii (l ++ q) (zlen l) (e ++ 0 :: r) = Ret b /\ (b = true <-> e = hex_of (md5 l)).
Proof.
  intros L1 L2 Lh La B N. unfold md5str_check. replace (Z.to_nat (zlen l)) with (length l) by (unfold zlen; lia).
  pose proof (md5str_ok j1 j2 raw ascii [] l q L1 L2 Lh La B) as H. cbn [app] in H. change (zlen (@nil Z)) with 0 in H. rewrite H, bind_ret.
  destruct (cstreq_ok (hex_of (md5 l)) e (zdrop 33 ascii) r (hex_nz _ (md5_bytes l)) N) as (b & E & He). exists b. split; [exact E|]. rewrite He. split; congruence.
Qed.
Lemma rc4_check_ok o hex key kr l q e r : nz key -> key <> [] -> bytes key -> zlen key < 18446744073709551615 -> bytes l -> bytes q -> bytes o -> zlen o = 2048 -> zlen hex = 4097 -> zlen l <= 2048 -> nz e ->
  exists b, rc4_check o hex (key ++ 0 :: kr) (l ++ q) (zlen l) (e ++ 0 :: r) = Ret b /\ (b = true <-> e = hex_of (xor_bytes l (keystream key (zlen l)))).
Proof.
  intros Nk Kne Bk Lk B Bq Bo Lo Lh Ll N. unfold rc4_check. pose proof (zlen_nonneg l) as Pl. pose proof (zlen_nonneg q) as Pq. rewrite strlen_0 by exact Nk. rewrite bind_ret.
  rewrite rc4_ok; auto; try (zl; lia); [|repeat (apply bytes_app; split); auto]. rewrite bind_ret. rewrite zdrop_app2 by (rewrite ztake_app_exact; lia). rewrite ztake_app_exact, Z.sub_diag, !zdrop_0.
  rewrite <- (app_assoc l). rewrite ztake_app_exact. destruct (keystream_ok key (zlen l) Kne Bk Lk Pl) as [LK BK].
  assert (Lx : zlen (xor_bytes l (keystream key (zlen l))) = zlen l) by (apply xor_len; lia). assert (Bx : bytes (xor_bytes l (keystream key (zlen l)))) by (apply xor_is_bytes; auto).
  set (x := xor_bytes l _) in *. clearbody x. generalize (zdrop (zlen (l ++ q) + zlen l) (l ++ q ++ o)). intros q2. rewrite <- Lx. rewrite raw2hex_ok by (auto; lia). rewrite bind_ret.
  destruct (cstreq_ok (hex_of x) e (zdrop (2 * zlen x + 1) hex) r (hex_nz _ Bx) N) as (b & E & He). exists b. split; [exact E|]. rewrite He. split; congruence.
Qed.
Lemma vectors_ok check (spec : list Z -> list Z) (P : list Z * list Z -> Prop) :
  (forall i a b, P (a, b) -> exists e, check i (a ++ [0]) (zlen a) (b ++ [0]) = Ret e /\ (e = true <-> b = spec a)) ->
  forall vs i, Forall P vs -> Forall (fun v => snd v = spec (fst v)) vs -> run_vectors check i vs = Ret (map (fun _ => true) vs).
Proof.
  intros H. induction vs as [|[a b] vs IH]; intros i FP FE; [reflexivity|]. inversion FP as [|? ? Pv FP']; subst. inversion FE as [|? ? Ev FE']; subst. cbn [run_vectors map fst snd] in *.
  destruct (H i a b Pv) as (e & E & He). rewrite E, bind_ret, (proj2 He Ev), IH by auto. reflexivity.
Qed.

(** checked by computation *)
Definition okb (l : list Z) : bool := forallb (fun x => (0 <=? x) && (x <? 256)) l.
Lemma okb_bytes l : okb l = true -> bytes l.
Proof. unfold okb, bytes. rewrite forallb_forall. intros H. apply Forall_forall. intros x Hx. specialize (H x Hx). unfold byte. lia. Qed.
Definition nzb (l : list Z) : bool := forallb (fun x => negb (x =? 0)) l.
Lemma nzb_nz l : nzb l = true -> nz l.
Proof. unfold nzb, nz. rewrite forallb_forall. intros H. apply Forall_forall. intros x Hx. specialize (H x Hx). destruct (Z.eqb_spec x 0); [discriminate|assumption]. Qed.
Fixpoint eqb (a b : list Z) : bool := match a, b with [], [] => true | x :: a, y :: b => (x =? y) && eqb a b | _, _ => false end.
Lemma eqb_ok : forall a b, eqb a b = true -> a = b.
Proof. induction a as [|x a IH]; intros [|y b] H; try discriminate; [reflexivity|]. cbn [eqb] in H. apply andb_prop in H as [H1 H2]. f_equal; [lia|now apply IH]. Qed.
Lemma md5_vectors_ok : Forall (fun v => bytes (fst v) /\ nz (snd v)) md5_vectors /\ Forall (fun v => snd v = hex_of (md5 (fst v))) md5_vectors.
Proof.
  assert (H : forallb (fun v => okb (fst v) && nzb (snd v) && eqb (snd v) (hex_of (md5 (fst v)))) md5_vectors = true) by (vm_compute; reflexivity).
  rewrite forallb_forall in H. split; apply Forall_forall; intros v Hv; specialize (H v Hv); apply andb_prop in H as [H H3]; apply andb_prop in H as [H1 H2]; [split; [now apply okb_bytes|now apply nzb_nz]|now apply eqb_ok].
Qed.
Definition pw : list Z := lit "just for test".
Lemma rc4_vectors_ok : Forall (fun v => bytes (fst v) /\ zlen (fst v) <= 2048 /\ nz (snd v)) rc4_vectors /\ Forall (fun v => snd v = hex_of (xor_bytes (fst v) (keystream pw (zlen (fst v))))) rc4_vectors.
Proof.
  assert (H : forallb (fun v => okb (fst v) && nzb (snd v) && eqb (snd v) (hex_of (xor_bytes (fst v) (keystream pw (zlen (fst v))))) && (zlen (fst v) <=? 2048)) rc4_vectors = true) by (vm_compute; reflexivity).
  rewrite forallb_forall in H. split; apply Forall_forall; intros v Hv; specialize (H v Hv); apply andb_prop in H as [H H4]; apply andb_prop in H as [H H3]; apply andb_prop in H as [H1 H2]; [split; [now apply okb_bytes|split; [lia|now apply nzb_nz]]|now apply eqb_ok].
Qed.
Lemma pw_ok : nz pw /\ pw <> [] /\ bytes pw /\ zlen pw < 18446744073709551615 /\ password = pw ++ 0 :: [].
Proof. split; [apply nzb_nz; reflexivity|]. split; [discriminate|]. split; [apply okb_bytes; reflexivity|]. split; reflexivity. Qed.

(** ---------- the CipherSaber tests ---------- *)
Lemma saber_test_ok (dec : list Z -> list Z -> Z -> out (list Z)) jm jp m text hmsg : hmsg = hex_of m -> bytes m -> zlen text = zlen m - 10 -> 0 <= zlen m - 10 -> zlen m <= zlen jm -> zlen m - 10 <= zlen jp -> bytes jp ->
  (forall dst, bytes dst -> zlen dst = zlen text -> dec dst m (zlen m) = Ret (text ++ zdrop (zlen text) dst)) -> saber_test dec jm jp hmsg text = Ret true.
Proof.
  intros -> Bm Lt Pm Ljm Ljp Bjp H. unfold saber_test. cbv zeta. rewrite hex_len. replace (2 * zlen m / 2) with (zlen m) by lia.
  pose proof (hex_roundtrip m [] (ztake (zlen m) jm) Bm ltac:(rewrite zlen_ztake; lia)) as R. rewrite R, bind_ret. rewrite Z.eqb_refl. cbn [negb].
  rewrite (zdrop_all (zlen m)) by (rewrite zlen_ztake; lia). rewrite app_nil_r. rewrite H; [|now apply bytes_ztake|rewrite zlen_ztake; lia]. rewrite bind_ret.
  rewrite zdrop_all by (rewrite zlen_ztake; lia). rewrite app_nil_r. apply memeq_self; unfold zlen; lia.
Qed.
Definition asdfg : list Z := lit "asdfg".
Lemma asdfg_ok : nz asdfg /\ bytes asdfg /\ zlen asdfg < 256 /\ clit "asdfg" = asdfg ++ 0 :: [].
Proof. split; [apply nzb_nz; reflexivity|]. split; [apply okb_bytes; reflexivity|]. split; reflexivity. Qed.
Definition w1 : list Z := [111; 109; 11; 171; 243; 170; 103; 25; 3; 21].
Definition w2 : list Z := [186; 154; 180; 207; 251; 119; 0; 230; 24; 227].
Lemma saber_bytes n key w text : key ++ w <> [] -> bytes key -> bytes w -> bytes text -> zlen (key ++ w) < 18446744073709551615 -> bytes (saber n key w text).
Proof. intros Ne Bk Bw Bt L. unfold saber. apply bytes_app. split; [exact Bw|]. apply xor_is_bytes; [exact Bt|]. apply keyn_ok; auto; [apply bytes_app; auto|apply zlen_nonneg]. Qed.
Lemma saber_zlen n key w text : key ++ w <> [] -> bytes key -> bytes w -> zlen (key ++ w) < 18446744073709551615 -> zlen (saber n key w text) = zlen w + zlen text.
Proof. intros Ne Bk Bw L. unfold saber. rewrite zlen_app, xor_len; [reflexivity|]. symmetry. apply keyn_ok; auto; [apply bytes_app; auto|apply zlen_nonneg]. Qed.
Lemma saber_main n w text hmsg iv dkey jm jp : hmsg = hex_of (saber (Z.to_nat n) asdfg w text) -> 0 <= n -> zlen w = 10 -> bytes w -> bytes text ->
  zlen iv = 10 -> 15 <= zlen dkey -> 10 + zlen text <= zlen jm -> zlen text <= zlen jp -> bytes jp ->
  saber_test (fun dst cmsg k => ciphersaber_2_dec iv dkey dst cmsg k (clit "asdfg") n) jm jp hmsg text = Ret true.
Proof.
  intros Eh Hn Lw Bw Bt Li Ld Ljm Ljp Bjp. destruct asdfg_ok as (N & B & L & E). set (m := saber (Z.to_nat n) asdfg w text) in *. pose proof (zlen_nonneg text) as Pt.
  assert (Ne : asdfg ++ w <> []) by discriminate. assert (Lk : zlen (asdfg ++ w) < 18446744073709551615) by (zl; lia).
  assert (Lm : zlen m = 10 + zlen text) by (unfold m; rewrite saber_zlen; auto; lia).
  apply (saber_test_ok _ jm jp m); auto; try lia; [now apply saber_bytes|].
  intros dst Bd Ldst. rewrite E. apply saber_dec; auto; try lia.
Qed.
Lemma saber2_ok iv dkey jm jp : zlen iv = 10 -> 15 <= zlen dkey -> 42 <= zlen jm -> 32 <= zlen jp -> bytes jp -> ciphersaber_2_test iv dkey jm jp = Ret true.
Proof.
  intros. unfold ciphersaber_2_test. apply (saber_main 10 w2); [apply eqb_ok; vm_compute; reflexivity|lia|reflexivity|apply okb_bytes; reflexivity|apply okb_bytes; reflexivity|assumption|assumption|assumption|assumption|assumption].
Qed.
Lemma saber1_ok iv dkey jm jp : zlen iv = 10 -> 15 <= zlen dkey -> 40 <= zlen jm -> 30 <= zlen jp -> bytes jp -> ciphersaber_1_test iv dkey jm jp = Ret true.
Proof.
  intros Li Ld Ljm Ljp Bjp. unfold ciphersaber_1_test. assert (X : forall f g h p, (forall a b c, f a b c = g a b c) -> saber_test f jm jp h p = saber_test g jm jp h p).
  { intros f g h p H. unfold saber_test. cbv zeta. destruct (hex2raw _ _) as [[r c]| |]; [|reflexivity|reflexivity]. rewrite !bind_ret. destruct (negb _); [reflexivity|]. now rewrite H. }
  rewrite (X _ (fun dst cmsg n => ciphersaber_2_dec iv dkey dst cmsg n (clit "asdfg") 1)) by (intros; apply saber1_is_2). 
  apply (saber_main 1 w1); [apply eqb_ok; vm_compute; reflexivity|lia|reflexivity|apply okb_bytes; reflexivity|apply okb_bytes; reflexivity|assumption|assumption|assumption|assumption|assumption].
Qed.

(** ---------- the main programs ---------- *)
Lemma print_ok : forall l p q, print_loop (length l) (zlen p) (p ++ l ++ q) = Ret l.
Proof.
  induction l as [|x l IH]; intros p q; [reflexivity|]. cbn [length print_loop app]. rewrite zread_at by reflexivity. rewrite bind_ret. pose proof (IH (p ++ [x]) q) as H. rewrite <- app_assoc in H. cbn [app] in H.
  replace (zlen p + 1) with (zlen (p ++ [x])) by (zl; lia). now rewrite H.
Qed.
Lemma rc4_arg_ok o a ar : nz a -> bytes a -> bytes ar -> bytes o -> zlen o = 2048 -> zlen a < 2048 -> rc4_arg o (a ++ 0 :: ar) = Ret (xor_bytes a (keystream pw (zlen a))).
Proof.
  intros Na Ba Bar Bo Lo La. destruct pw_ok as (Np & Pne & Bp & Lp & Ep). unfold rc4_arg. pose proof (zlen_nonneg a) as Pa. pose proof (zlen_nonneg ar) as Par. rewrite strlen_0 by exact Na. rewrite bind_ret, Ep, strlen_0 by exact Np. rewrite bind_ret.
  rewrite rc4_ok; auto; try (zl; lia); [|apply bytes_app; split; [apply bytes_app; split; [exact Ba|apply bytes_cons; split; [unfold byte; lia|exact Bar]]|exact Bo]]. rewrite bind_ret.
  rewrite zdrop_app2 by (rewrite ztake_app_exact; lia). rewrite ztake_app_exact, Z.sub_diag, !zdrop_0. rewrite <- (app_assoc a). rewrite ztake_app_exact.
  destruct (keystream_ok pw (zlen a) Pne Bp Lp Pa) as [LK BK]. set (x := xor_bytes a _). assert (Lx : zlen x = zlen a) by (apply xor_len; lia). clearbody x.
  rewrite app_assoc. rewrite zdrop_app2 by (zl; lia). replace (_ - zlen (a ++ 0 :: ar)) with (zlen a) by (zl; lia).
  destruct (zsplit (zlen a + 1) o) as (o1 & o2 & -> & L1); [lia|]. destruct (zsplit (zlen a) o1) as (o3 & o4 & -> & L3); [lia|]. destruct o4 as [|y [|z o4]]; [revert L1; zl; lia| |revert L1; zl; zpos; lia].
  rewrite <- app_assoc. cbn [app]. rewrite <- L3 at 1. rewrite zdrop_app_exact. rewrite zwrite_at by lia. rewrite bind_ret. rewrite <- Lx. pose proof (print_ok x [] (0 :: o2)) as H. cbn [app] in H. change (zlen (@nil Z)) with 0 in H. replace (Z.to_nat (zlen x)) with (length x) by (unfold zlen; lia). exact H.
Qed.
Lemma rc4_arg_2048 o a ar : nz a -> bytes a -> bytes ar -> bytes o -> zlen o = 2048 -> zlen a = 2048 -> rc4_arg o (a ++ 0 :: ar) = UB.
Proof.
  intros Na Ba Bar Bo Lo La. destruct pw_ok as (Np & Pne & Bp & Lp & Ep). unfold rc4_arg. pose proof (zlen_nonneg ar) as Par. rewrite strlen_0 by exact Na. rewrite bind_ret, Ep, strlen_0 by exact Np. rewrite bind_ret.
  rewrite rc4_ok; auto; try (zl; lia); [|apply bytes_app; split; [apply bytes_app; split; [exact Ba|apply bytes_cons; split; [unfold byte; lia|exact Bar]]|exact Bo]]. rewrite bind_ret.
  rewrite zdrop_app2 by (rewrite ztake_app_exact; lia). rewrite ztake_app_exact, Z.sub_diag, !zdrop_0. rewrite <- (app_assoc a). rewrite ztake_app_exact.
  destruct (keystream_ok pw (zlen a) Pne Bp Lp ltac:(lia)) as [LK BK]. set (x := xor_bytes a _). assert (Lx : zlen x = zlen a) by (apply xor_len; lia). clearbody x.
  rewrite app_assoc. rewrite zdrop_app2 by (zl; lia). replace (_ - zlen (a ++ 0 :: ar)) with (zlen a) by (zl; lia). rewrite (zdrop_all (zlen a) o), app_nil_r by lia.
  rewrite zwrite_oob by lia. reflexivity.
Qed.
Lemma zread_nf (b : list Z) i : zread b i <> Fuel.
Proof. destruct (Z_le_dec 0 i) as [A|A]; [destruct (Z_lt_dec i (zlen b)) as [C|C]|]; [rewrite (zread_ok 0) by lia; discriminate|rewrite zread_oob by lia; discriminate|rewrite zread_oob by lia; discriminate]. Qed.
Lemma zwrite_nf (b : list Z) i v : zwrite b i v <> Fuel.
Proof. destruct (Z_le_dec 0 i) as [A|A]; [destruct (Z_lt_dec i (zlen b)) as [C|C]|]; [rewrite zwrite_ok by lia; discriminate|rewrite zwrite_oob by lia; discriminate|rewrite zwrite_oob by lia; discriminate]. Qed.
Lemma swap_nf b i j : swap b i j <> Fuel.
Proof.
  unfold swap. destruct (zread b i) as [x| |] eqn:E; [|discriminate|now apply zread_nf in E]. rewrite bind_ret. destruct (zread b j) as [y| |] eqn:E2; [|discriminate|now apply zread_nf in E2]. rewrite bind_ret.
  destruct (zwrite b i _) as [b2| |] eqn:E3; [|discriminate|now apply zwrite_nf in E3]. rewrite bind_ret. apply zwrite_nf.
Qed.
Lemma prga_oob : forall n box mem d s x y z, d + x + Z.of_nat n > zlen mem -> d + x <= zlen mem -> rc4_prga n box mem d s x y z = UB.
Proof.
  induction n as [|n IH]; intros box mem d s x y z H1 H2; [lia|]. cbn [rc4_prga].
  do 6 match goal with |- bind ?e _ = UB => let E := fresh in destruct e eqn:E; [rewrite bind_ret; clear E|reflexivity|first [now apply zread_nf in E|now apply swap_nf in E]] end.
  destruct (zwrite mem (d + x) _) as [m'| |] eqn:E; [|reflexivity|now apply zwrite_nf in E]. rewrite bind_ret. pose proof (zwrite_len _ _ _ _ E) as L.
  destruct (Z_le_dec (zlen mem) (d + x)) as [G|G]; [rewrite zwrite_oob in E by lia; discriminate|]. apply IH; lia.
Qed.
Lemma rc4_arg_long o a ar : nz a -> bytes a -> bytes ar -> bytes o -> zlen o = 2048 -> 2048 <= zlen a -> rc4_arg o (a ++ 0 :: ar) = UB.
Proof.
  intros Na Ba Bar Bo Lo La. destruct (Z.eq_dec (zlen a) 2048) as [E|E]; [now apply rc4_arg_2048|]. destruct pw_ok as (Np & Pne & Bp & Lp & Ep).
  unfold rc4_arg. pose proof (zlen_nonneg ar) as Par. rewrite strlen_0 by exact Na. rewrite bind_ret, Ep, strlen_0 by exact Np. rewrite bind_ret. unfold rc4.
  destruct (P_rc4.ksa_ok pw [0] Pne Bp Lp 256 0 box0) as [box [E1 _]]; [exact box0_repr|cbn; lia|lia|]. rewrite Zmod_0_l in E1. change (Z.of_nat 0) with 0 in E1. change (snd (ksa pw 0)) with 0 in E1. rewrite E1, bind_ret.
  rewrite prga_oob; [reflexivity| |]; zl; lia.
Qed.
Lemma crc_ok val : zlen val = 4 -> crc_test POLY32 val = Ret true /\ crc_test POLY32C val = Ret true.
Proof.
  intros L. destruct val as [|a [|b [|c [|d [|e v]]]]]; try (revert L; zl; zpos; lia). clear L. split; vm_compute; reflexivity.
Qed.
Lemma hex_tests_ok : forall vs buf r t, Forall (fun v => bytes (fst v) /\ snd v = hex_of (fst v) /\ 2 * zlen (fst v) + 1 <= zlen buf) vs -> hex_tests buf vs r t = Ret (r, t + zlen vs).
Proof.
  induction vs as [|[x y] vs IH]; intros buf r t F; [cbn [hex_tests]; change (zlen (@nil (list Z * list Z))) with 0; now rewrite Z.add_0_r|]. inversion F as [|? ? (B & E & L) F']; subst. cbn [hex_tests fst snd] in *. unfold hex_check. subst y.
  rewrite raw2hex_ok by auto. rewrite bind_ret. pose proof (hex_nz _ B) as N. destruct (cstreq_ok (hex_of x) (hex_of x) (zdrop (2 * zlen x + 1) buf) [] N N) as (e & Ee & He). rewrite Ee, !bind_ret. rewrite (proj2 He eq_refl).
  rewrite IH; [f_equal; f_equal; zl; lia|]. eapply Forall_impl; [|exact F']. intros v (V1 & V2 & V3). split; [exact V1|]. split; [exact V2|]. zpos. zl. rewrite hex_len, zlen_zdrop by lia. lia.
Qed.
