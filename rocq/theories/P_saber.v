(** Proofs about rc4_n and CipherSaber. *)
From Coq Require Import String Ascii.
From Verif Require Import Base Bits Cstr M_hex M_rc4 S_rc4 P_rc4 S_saber M_shatest P_shatest M_hashtest.
Ltac Zify.zify_post_hook ::= Z.div_mod_to_equations.

Lemma pass_snd key m st : 0 <= snd st < 256 -> 0 <= snd (pass key m st) < 256.
Proof. destruct m; cbn [pass]; [auto|]. intros _. destruct (pass key m st). cbn [snd]. apply Z.mod_pos_bound. lia. Qed.
Lemma pass_ksa key : forall m, pass key m (fun k => k, 0) = ksa key m.
Proof. induction m as [|m IH]; [reflexivity|]. cbn [pass ksa]. now rewrite IH. Qed.
Lemma ksan_ok key keyrest st : key <> [] -> bytes key -> zlen key < 18446744073709551615 -> 0 <= snd st < 256 ->
  forall n m box, repr box (fst (pass key m st)) -> Z.of_nat m + Z.of_nat n <= 256 ->
  exists box', rc4n_ksa n box (key ++ keyrest) (Z.of_nat m) (snd (pass key m st)) (Z.of_nat m mod zlen key) (zlen key) = Ret (box', snd (pass key (m + n) st)) /\
    repr box' (fst (pass key (m + n) st)).
Proof.
  intros Hne Hb HK Hst. assert (HKp : 0 < zlen key) by (destruct key; [congruence|zl; zpos; lia]).
  induction n as [|n IH]; intros m box HB Hmn.
  - rewrite Nat.add_0_r. exists box. auto.
  - cbn [rc4n_ksa]. pose proof (pass_snd key m st Hst) as Hy. pose proof HB as [HL HS]. destruct (HS (Z.of_nat m) ltac:(lia)) as [E1 R1].
    assert (Hz : 0 <= Z.of_nat m mod zlen key < zlen key) by (apply Z.mod_pos_bound; lia).
    rewrite (zread_ok 0) by lia. cbn [bind]. rewrite (zread_ok 0) by (zl; zpos; lia). cbn [bind]. rewrite znth_app1 by lia. rewrite E1.
    pose proof (Forall_znth _ 0 key _ Hb Hz) as Hk. cbn beta in Hk. unfold byte in Hk.
    rewrite (u64_small (_ + _)) by lia.
    set (y := (_ + _) mod 256). assert (Hy' : 0 <= y < 256) by (apply Z.mod_pos_bound; lia).
    destruct (swap_repr box _ (Z.of_nat m) y HB ltac:(lia) Hy') as [box' [-> HB']]. cbn [bind].
    assert (EK : pass key (S m) st = (exch (fst (pass key m st)) (Z.of_nat m) y, y)). { cbn [pass]. unfold y. destruct (pass key m st). reflexivity. }
    specialize (IH (S m) box'). rewrite EK in IH. cbn [fst snd] in IH. destruct (IH HB' ltac:(lia)) as [b [E2 E3]].
    exists b. rewrite Nat.add_succ_r. split; [|exact E3]. change (S m + n)%nat with (S (m + n)) in E2. rewrite <- E2. rewrite u64_small by lia. f_equal; [lia|].
    rewrite Nat2Z.inj_succ. unfold Z.succ. rewrite <- (Z.add_mod_idemp_l (Z.of_nat m)) by lia.
    destruct (_ =? zlen key) eqn:E.
    + replace (Z.of_nat m mod zlen key + 1) with (zlen key) by lia. rewrite Z.mod_same; lia.
    + rewrite (Z.mod_small (_ + 1)); lia.
Qed.
Lemma rounds_ok key keyrest : key <> [] -> bytes key -> zlen key < 18446744073709551615 ->
  forall n box st, repr box (fst st) -> 0 <= snd st < 256 ->
  exists box', rc4n_rounds n box (key ++ keyrest) (snd st) (zlen key) = Ret box' /\ repr box' (fst (Nat.iter n (pass key 256) st)).
Proof.
  intros Hne Hb HK. induction n as [|n IH]; intros box st HB Hst; [exists box; auto|]. cbn [rc4n_rounds].
  destruct (ksan_ok key keyrest st Hne Hb HK Hst 256 0 box HB ltac:(lia)) as (b & E & R). rewrite Zmod_0_l in E. change (Z.of_nat 0) with 0 in E. change (pass key 0 st) with st in E. rewrite E, bind_ret.
  change (0 + 256)%nat with 256%nat in *. destruct (IH b (pass key 256 st) R (pass_snd key 256 st Hst)) as (b' & E' & R'). exists b'. split; [exact E'|].
  replace (Nat.iter (S n) (pass key 256) st) with (Nat.iter n (pass key 256) (pass key 256 st)); [exact R'|]. clear. generalize (pass key 256). intros f. induction n as [|n IH]; [reflexivity|]. cbn [Nat.iter nat_rect] in *. unfold Nat.iter in *. cbn [nat_rect]. now rewrite IH.
Qed.
Lemma rc4_n_ok mem d s len key keyrest n : key <> [] -> bytes key -> zlen key < 18446744073709551615 -> bytes mem ->
  0 <= len -> 0 <= d -> 0 <= s -> d + len <= zlen mem -> s + len <= zlen mem -> (d <= s \/ s + len <= d) ->
  rc4_n mem d s len (key ++ keyrest) (zlen key) n = Ret (ztake d mem ++ xor_bytes (ztake len (zdrop s mem)) (keystream_n key (Z.to_nat n) len) ++ zdrop (d + len) mem).
Proof.
  intros Hne Hb HK HM Hl Hd Hs H1 H2 H3. unfold rc4_n.
  destruct (rounds_ok key keyrest Hne Hb HK (Z.to_nat n) box0 (fun k => k, 0) box0_repr) as (box & E1 & E2); [cbn; lia|]. cbn [snd] in E1. rewrite E1, bind_ret.
  pose proof (prga_ok mem d s Hd Hs HM (Z.to_nat len) [] box _ 0 0 E2) as HP.
  change (zlen []) with 0 in HP. cbn [app] in HP. rewrite !Z.add_0_r in HP. rewrite Z2Nat.id in HP by lia.
  rewrite ztake_zdrop in HP. exact (HP ltac:(lia) ltac:(lia) H1 H2 H3).
Qed.
Lemma keystream_1 key len : keystream_n key 1 len = keystream key len.
Proof. unfold keystream_n, keystream, passes. change (Nat.iter 1 (pass key 256) (fun k => k, 0)) with (pass key 256 (fun k : Z => k, 0)). now rewrite pass_ksa. Qed.
Lemma rc4_n_1 mem d s len key keylen : rc4_n mem d s len key keylen 1 = rc4 mem d s len key keylen.
Proof.
  unfold rc4_n, rc4. change (Z.to_nat 1) with 1%nat. cbn [rc4n_rounds].
  assert (H : forall n box x y z, (let* r := rc4n_ksa n box key x y z keylen in Ret (fst r)) = rc4_ksa n box key x y z keylen).
  { induction n as [|n IH]; intros; [reflexivity|]. cbn [rc4n_ksa rc4_ksa]. destruct (zread box x); [|reflexivity|reflexivity]. rewrite !bind_ret. destruct (zread key z); [|reflexivity|reflexivity]. rewrite !bind_ret.
    destruct (swap box x _); [|reflexivity|reflexivity]. rewrite !bind_ret. apply IH. }
  specialize (H 256%nat box0 0 0 0). destruct (rc4n_ksa 256 box0 key 0 0 0 keylen) as [[b y]| |]; rewrite <- H; reflexivity.
Qed.

(** ---------- CipherSaber ---------- *)
Lemma zreads_0 (m q : list Z) n : n = zlen m -> zreads (m ++ q) 0 n = Ret m.
Proof. intros. now apply (zreads_at [] m q). Qed.
Lemma zwrites_0 (m q l : list Z) : zlen m = zlen l -> zwrites (m ++ q) 0 l = Ret (l ++ q).
Proof. intros. now apply (zwrites_at [] m q). Qed.
Lemma dec_key_ok iv dkey key kr w m : zlen iv = 10 -> nz key -> zlen key < 256 -> zlen key + 10 <= zlen dkey -> zlen w = 10 -> 
  dec_key iv dkey (w ++ m) (key ++ 0 :: kr) (10 + zlen m) = Ret (key ++ w, zlen key).
Proof.
  intros Li N Lk Ld Lw. unfold dec_key. pose proof (zlen_nonneg m). pose proof (zlen_nonneg key). replace (10 <=? _) with true by lia.
  rewrite zreads_0 by lia. rewrite bind_ret. rewrite zwrites_ok by lia. rewrite bind_ret. change (ztake 0 iv) with (@nil Z). cbn [app]. rewrite (zdrop_all _ iv), app_nil_r by lia.
  rewrite strlen_0 by exact N. rewrite bind_ret. replace (zlen key <? 256) with true by lia.
  rewrite zreads_0 by reflexivity. rewrite bind_ret.
  assert (Lt : zlen (ztake (zlen key + 10) dkey) = zlen key + 10) by (apply zlen_ztake; lia). set (dk := ztake _ dkey) in *. clearbody dk.
  destruct (zsplit (zlen key) dk) as (a & b & -> & La); [lia|]. revert Lt. zl. intros Lt.
  rewrite zwrites_0 by lia. rewrite bind_ret. replace (zreads w 0 10) with (Ret w) by (pose proof (zreads_0 w [] 10 ltac:(lia)) as X; rewrite app_nil_r in X; now rewrite X). rewrite bind_ret.
  rewrite <- (app_nil_r b). rewrite (zwrites_at key b [] w) by (auto; lia). rewrite bind_ret, app_nil_r. reflexivity.
Qed.
Lemma xor_length a b : zlen a = zlen b -> zlen (xor_bytes a b) = zlen a.
Proof. apply xor_len. Qed.
Lemma keyn_ok key n len : key <> [] -> bytes key -> zlen key < 18446744073709551615 -> 0 <= len -> zlen (keystream_n key n len) = len /\ bytes (keystream_n key n len).
Proof.
  intros Hne Hb HK Hn. unfold keystream_n. split; [rewrite stream_len; lia|].
  destruct (rounds_ok key [] Hne Hb HK n box0 (fun k => k, 0) box0_repr) as (box & _ & [_ E2]); [cbn; lia|].
  apply stream_bytes. intros k Hk. now apply E2.
Qed.
Lemma saber_dec iv dkey dst key kr w text n : zlen iv = 10 -> nz key -> bytes key -> zlen key < 256 -> zlen key + 10 <= zlen dkey -> zlen w = 10 -> bytes w -> bytes text -> bytes dst -> zlen text <= zlen dst -> 0 <= n ->
  let m := saber (Z.to_nat n) key w text in ciphersaber_2_dec iv dkey dst m (zlen m) (key ++ 0 :: kr) n = Ret (text ++ zdrop (zlen text) dst).
Proof.
  intros Li N Bk Lk Ld Lw Bw Bt Bd Ltd Hn m. unfold m, saber. pose proof (zlen_nonneg text) as Pt. pose proof (zlen_nonneg key) as Pk.
  assert (Kne : key ++ w <> []) by (intros X; apply (f_equal (@zlen Z)) in X; revert X; zl; lia).
  assert (Bkw : bytes (key ++ w)) by (apply bytes_app; auto). destruct (keyn_ok (key ++ w) (Z.to_nat n) (zlen text) Kne Bkw ltac:(zl; lia) Pt) as [LK BK].
  set (ks := keystream_n (key ++ w) (Z.to_nat n) (zlen text)) in *. assert (Lx : zlen (xor_bytes text ks) = zlen text) by (apply xor_len; lia).
  assert (Bx : bytes (xor_bytes text ks)) by (apply xor_is_bytes; auto). set (x := xor_bytes text ks) in *.
  unfold ciphersaber_2_dec. replace (zlen (w ++ x)) with (10 + zlen x) at 1 by (zl; lia). rewrite dec_key_ok by auto. rewrite bind_ret.
  replace (zlen (w ++ x) - 10) with (zlen text) by (zl; lia). rewrite <- (app_nil_r (key ++ w)). replace (zlen key + 10) with (zlen (key ++ w)) by (zl; lia).
  rewrite rc4_n_ok; auto; try (zl; lia); [|repeat (apply bytes_app; split); auto]. rewrite bind_ret. f_equal.
  rewrite (zdrop_app2 (zlen (w ++ x))) by (rewrite ztake_app_exact; lia). rewrite ztake_app_exact, Z.sub_diag, zdrop_0. f_equal.
  - fold ks. rewrite <- (app_assoc w). replace 10 with (zlen w) by exact Lw. rewrite zdrop_app_exact, <- Lx, ztake_app_exact. apply xor_twice. lia.
  - rewrite zdrop_app2 by lia. f_equal. lia.
Qed.
Lemma saber1_is_2 iv dkey dst cmsg clen key : ciphersaber_1_dec iv dkey dst cmsg clen key = ciphersaber_2_dec iv dkey dst cmsg clen key 1.
Proof. unfold ciphersaber_1_dec, ciphersaber_2_dec. destruct (dec_key iv dkey cmsg key clen) as [[d l]| |]; [|reflexivity|reflexivity]. rewrite !bind_ret. now rewrite rc4_n_1. Qed.
