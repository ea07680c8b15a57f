(** Proofs about sha512: byte order, buffering, padding. *)
From Verif Require Import Base Bits M_sha512 S_hash S_sha512 D_sha512 P_crc32 P_hash P_sha512.
Ltac Zify.zify_post_hook ::= Z.div_mod_to_equations.
Global Opaque round.

(** ** byte order *)
Lemma be_val_cons b l : be_val (b :: l) = b * 256 ^ zlen l + be_val l.
Proof. unfold be_val. cbn [rev]. rewrite le_val_app. unfold zlen. rewrite rev_length. cbn [le_val]. lia. Qed.
Lemma bytes_rev l : bytes l -> bytes (rev l).
Proof. apply Forall_rev. Qed.
Lemma be_val_range l : bytes l -> 0 <= be_val l < 256 ^ zlen l.
Proof. intros B. pose proof (le_val_range (rev l) (bytes_rev l B)) as H. unfold zlen in *. rewrite rev_length in H. exact H. Qed.
Lemma be_bytes_len n v : zlen (be_bytes n v) = Z.of_nat n.
Proof. unfold be_bytes, zlen. rewrite rev_length. exact (le_bytes_len n v). Qed.
Lemma be_bytes_bytes n v : bytes (be_bytes n v).
Proof. apply bytes_rev, le_bytes_bytes. Qed.
Lemma be_bytes_S n v : be_bytes (S n) v = be_bytes n (v / 256) ++ [v mod 256].
Proof. reflexivity. Qed.
Lemma le_val_bytes n : forall v, le_val (le_bytes n v) = v mod 256 ^ Z.of_nat n.
Proof.
  induction n as [|n IH]; intros v; [cbn [le_bytes le_val]; change (256 ^ Z.of_nat 0) with 1; now rewrite Z.mod_1_r|]. cbn [le_bytes le_val]. rewrite IH, Nat2Z.inj_succ, Z.pow_succ_r by lia.
  rewrite Z.rem_mul_r; [reflexivity|lia|]. apply Z.pow_pos_nonneg; lia.
Qed.
Lemma be_val_bytes n v : be_val (be_bytes n v) = v mod 256 ^ Z.of_nat n.
Proof. unfold be_val, be_bytes. rewrite rev_involutive. apply le_val_bytes. Qed.
Lemma dl_loop : forall l p q u i o, bytes l -> 0 <= u -> u * 256 ^ zlen l + 256 ^ zlen l <= 2 ^ 64 -> o + i = zlen p ->
  for_ (length l) i (fun i u => let* b := zread (p ++ l ++ q) (o + i) in Ret (Z.lor (u64 (Z.shiftl u 8)) b)) u = Ret (u * 256 ^ zlen l + be_val l).
Proof.
  induction l as [|b l IH]; intros p q u i o B U Hu E; [cbn [length]; rewrite for_0; change (256 ^ zlen []) with 1; f_equal; cbn; lia|].
  apply bytes_cons in B as [Bb B]. unfold byte in Bb. cbn [length]. rewrite for_S. cbn [app]. rewrite zread_at by auto. rewrite !bind_ret.
  rewrite zlen_cons in *. rewrite Z.pow_add_r in * by (zpos; lia). change (256 ^ 1) with 256 in *. assert (P : 0 < 256 ^ zlen l) by (apply Z.pow_pos_nonneg; zpos; lia).
  assert (U2 : u * 256 < 2 ^ 64) by nia. rewrite Z.shiftl_mul_pow2 by lia. change (2 ^ 8) with 256. rewrite u64_id by lia. change 256 with (2 ^ 8) at 1. rewrite lor_add by lia. change (2 ^ 8) with 256.
  replace (p ++ b :: l ++ q) with ((p ++ [b]) ++ l ++ q) by (now rewrite <- app_assoc). rewrite IH; [|auto|lia|nia|zl; lia]. f_equal. rewrite be_val_cons. ring.
Qed.
Lemma dl64_ok p l q : zlen l = 8 -> bytes l -> dl64 (p ++ l ++ q) (zlen p) = Ret (be_val l).
Proof.
  intros L B. unfold dl64. replace 8%nat with (length l) by (unfold zlen in L; lia). rewrite dl_loop; auto; try lia. rewrite L. lia.
Qed.
Lemma dl64s_S k x o : dl64s (S k) x o = (let* v := dl64 x o in let* l := dl64s k x (o + 8) in Ret (v :: l)).
Proof. reflexivity. Qed.
Lemma dl64s_ok : forall k p l q, zlen l = 8 * Z.of_nat k -> bytes l -> dl64s k (p ++ l ++ q) (zlen p) = Ret (map be_val (blocks 8 k l)).
Proof.
  induction k as [|k IH]; intros p l q L B; [reflexivity|]. destruct (zsplit 8 l) as (l1 & l2 & -> & L1); [zpos; lia|]. apply bytes_app in B as [B1 B2].
  rewrite dl64s_S, <- app_assoc, dl64_ok, bind_ret by auto. replace (zlen p + 8) with (zlen (p ++ l1)) by (zl; lia). rewrite (app_assoc p). rewrite IH; [|revert L; zl; lia|auto]. rewrite bind_ret.
  cbn [blocks map]. rewrite <- L1. rewrite ztake_app_exact, zdrop_app_exact. reflexivity.
Qed.
Lemma ts_loop : forall n p m q u o, zlen m = Z.of_nat n -> o = zlen p -> (n <= 8)%nat -> 0 <= u ->
  exists u', for_ n (8 - Z.of_nat n) (fun k '(x, u) => let* x := zwrite x (o + (7 - k)) (u8 u) in Ret (x, Z.shiftr u 8)) (p ++ m ++ q, u) = Ret (p ++ be_bytes n u ++ q, u').
Proof.
  induction n as [|n IH]; intros p m q u o L E N U; [exists u; rewrite for_0; assert (m = []) by (apply zlen_0; lia); subst m; reflexivity|].
  destruct (zsplit (Z.of_nat n) m) as (m1 & m2 & -> & L1); [lia|]. destruct m2 as [|x [|y m2]]; [revert L; zl; lia| |revert L; zl; zpos; lia].
  rewrite for_S. rewrite <- app_assoc, (app_assoc p). cbn [app]. rewrite zwrite_at by (zl; lia). rewrite bind_ret. rewrite <- app_assoc.
  replace (8 - Z.of_nat (S n) + 1) with (8 - Z.of_nat n) by lia. rewrite Z.shiftr_div_pow2 by lia. change (2 ^ 8) with 256.
  destruct (IH p m1 (u8 u :: q) (u / 256) o L1 E ltac:(lia) ltac:(lia)) as (u' & R). exists u'. rewrite bind_ret, R. rewrite be_bytes_S, <- !app_assoc. reflexivity.
Qed.
Lemma ts64_ok p m q u : zlen m = 8 -> 0 <= u -> ts64 (p ++ m ++ q) (zlen p) u = Ret (p ++ be_bytes 8 u ++ q).
Proof.
  intros L U. unfold ts64. destruct (ts_loop 8 p m q u (zlen p) L eq_refl ltac:(lia) U) as (u' & E). change (8 - Z.of_nat 8) with 0 in E. rewrite E, bind_ret. reflexivity.
Qed.
Lemma store_ok : forall zs p m q zd, zlen m = 8 * zlen zs -> zlen p = 8 * zlen zd -> Forall w64 zs ->
  for_ (length zs) (zlen zd) (fun i x => let* v := zread (zd ++ zs) i in ts64 x (8 * i) v) (p ++ m ++ q) = Ret (p ++ concat (map (be_bytes 8) zs) ++ q).
Proof.
  induction zs as [|z zs IH]; intros p m q zd L Lp Fa; [cbn [length map concat]; rewrite for_0; assert (m = []) by (apply zlen_0; revert L; zl; lia); subst m; reflexivity|].
  inversion Fa as [|? ? W Fa']; subst. rewrite zlen_cons in L. destruct (zsplit 8 m) as (m1 & m2 & -> & L1); [zpos; lia|]. cbn [length]. rewrite for_S, zread_at by auto. rewrite bind_ret.
  rewrite <- app_assoc. rewrite <- Lp. rewrite ts64_ok by (unfold w64 in W; lia). rewrite bind_ret. replace (zlen zd + 1) with (zlen (zd ++ [z])) by (zl; lia).
  replace (zd ++ z :: zs) with ((zd ++ [z]) ++ zs) by (now rewrite <- app_assoc). rewrite (app_assoc p). rewrite IH; [|revert L; zl; lia|rewrite zlen_app, be_bytes_len; zl; lia|auto].
  cbn [map concat]. now rewrite <- !app_assoc.
Qed.
Lemma blocks_concat {A} k : forall ls : list (list A), Forall (fun l => zlen l = k) ls -> blocks k (length ls) (concat ls) = ls.
Proof.
  induction ls as [|l ls IH]; intros Fa; [reflexivity|]. inversion Fa as [|? ? L Fa']; subst. cbn [length blocks concat]. rewrite ztake_app_exact, zdrop_app_exact. now rewrite IH.
Qed.
Definition enc (zs : list Z) : list Z := concat (map (be_bytes 8) zs).
Lemma enc_len zs : zlen (enc zs) = 8 * zlen zs.
Proof. unfold enc. induction zs as [|z zs IH]; [reflexivity|]. cbn [map concat]. rewrite zlen_app, be_bytes_len, IH. zl. lia. Qed.
Lemma enc_bytes zs : bytes (enc zs).
Proof. unfold enc. induction zs as [|z zs IH]; [constructor|]. cbn [map concat]. apply bytes_app. split; [apply be_bytes_bytes|exact IH]. Qed.
Lemma load_ok zs : length zs = 8%nat -> Forall w64 zs -> dl64s 8 (enc zs) 0 = Ret zs.
Proof.
  intros L Fa. pose proof (dl64s_ok 8 [] (enc zs) []) as H. rewrite app_nil_r in H. cbn [app] in H. change (zlen (@nil Z)) with 0 in H. rewrite H; [|rewrite enc_len; unfold zlen; lia|apply enc_bytes]. f_equal.
  unfold enc. replace (blocks 8 8 _) with (map (be_bytes 8) zs).
  - rewrite map_map. rewrite <- (map_id zs) at 2. apply map_ext_in. intros z Hz. rewrite be_val_bytes. rewrite Forall_forall in Fa. apply Z.mod_small. exact (Fa z Hz).
  - symmetry. replace 8%nat with (length (map (be_bytes 8) zs)) at 1 by (rewrite map_length; exact L). apply blocks_concat. apply Forall_forall. intros l Hl. apply in_map_iff in Hl as (z & <- & _). apply be_bytes_len.
Qed.
(** ** hashblocks *)
Lemma addloop (a0 a1 a2 a3 a4 a5 a6 a7 z0 z1 z2 z3 z4 z5 z6 z7 : Z) :
  let r := [u64 (a0 + z0); u64 (a1 + z1); u64 (a2 + z2); u64 (a3 + z3); u64 (a4 + z4); u64 (a5 + z5); u64 (a6 + z6); u64 (a7 + z7)] in
  for_ 8 0 (fun i '(a, z) =>
          let* x := zread a i in let* y := zread z i in
          let* a := zwrite a i (u64 (x + y)) in let* x := zread a i in let* z := zwrite z i x in Ret (a, z)) ([a0; a1; a2; a3; a4; a5; a6; a7], [z0; z1; z2; z3; z4; z5; z6; z7]) = Ret (r, r).
Proof. Transparent for_. reflexivity. Opaque for_. Qed.
Lemma add_ok a z : length a = 8%nat -> length z = 8%nat -> for_ 8 0 (fun i '(a, z) =>
          let* x := zread a i in let* y := zread z i in
          let* a := zwrite a i (u64 (x + y)) in let* x := zread a i in let* z := zwrite z i x in Ret (a, z)) (a, z) =
          Ret (map (fun p => add64 (fst p) (snd p)) (combine a z), map (fun p => add64 (fst p) (snd p)) (combine a z)).
Proof. intros La Lz. list8 a. list8 z. rewrite addloop. reflexivity. Qed.
Lemma compress_def h block : sha_compress h block = map (fun p => add64 (fst p) (snd p))
  (combine (fold_left (sha_step (schedule 64 (map be_val (blocks 8 16 block)))) (map Z.of_nat (seq 0 80)) h) h).
Proof. unfold sha_compress. reflexivity. Qed.
Lemma compress_len h b : length h = 8%nat -> length (sha_compress h b) = 8%nat.
Proof. intros L. unfold sha_compress. cbv zeta. rewrite map_length, combine_length, steps_def, steps_len, L; auto. Qed.
Lemma compress_w h b : Forall w64 (sha_compress h b).
Proof. unfold sha_compress. apply Forall_forall. intros x Hx. apply in_map_iff in Hx as (p & <- & _). apply add64_w. Qed.
Lemma hash_loop_S fuel m o n z a : hash_loop (S fuel) m o n z a =
      if 128 <=? n then
        let* w := dl64s 16 m o in
        let* (a, _) := for_ 80 0 round (a, w) in
        let* (a, z) := for_ 8 0 (fun i '(a, z) =>
          let* x := zread a i in let* y := zread z i in
          let* a := zwrite a i (u64 (x + y)) in let* x := zread a i in let* z := zwrite z i x in Ret (a, z)) (a, z) in
        hash_loop fuel m (o + 128) (n - 128) z a
      else Ret z.
Proof. reflexivity. Qed.
Lemma words_w k l : bytes l -> zlen l = 8 * Z.of_nat k -> Forall w64 (map be_val (blocks 8 k l)).
Proof.
  revert l. induction k as [|k IH]; intros l B L; [constructor|]. destruct (zsplit 8 l) as (l1 & l2 & -> & L1); [lia|]. apply bytes_app in B as [B1 B2]. cbn [blocks map]. rewrite <- L1, ztake_app_exact, zdrop_app_exact.
  apply Forall_cons; [pose proof (be_val_range l1 B1) as H; rewrite L1 in H; exact H|]. rewrite L1. apply IH; [auto|revert L; zl; lia].
Qed.
Lemma hash_loop_ok : forall fuel p l q r z, bytes l -> zlen l = 128 * Z.of_nat fuel -> 0 <= r < 128 -> length z = 8%nat -> Forall w64 z ->
  hash_loop (S fuel) (p ++ l ++ q) (zlen p) (zlen l + r) z z = Ret (fold_left sha_compress (blocks 128 fuel l) z).
Proof.
  induction fuel as [|fuel IH]; intros p l q r z B L Hr Lz Fz; rewrite hash_loop_S.
  - replace (128 <=? zlen l + r) with false by lia. reflexivity.
  - replace (128 <=? zlen l + r) with true by lia. destruct (zsplit 128 l) as (l1 & l2 & -> & L1); [lia|]. apply bytes_app in B as [B1 B2]. rewrite <- app_assoc.
    rewrite (dl64s_ok 16 p l1 (l2 ++ q)) by (auto; lia). rewrite bind_ret. set (m := map be_val _).
    destruct (rounds_ok m z) as (w' & E); [unfold m; rewrite zlen_map; unfold zlen; now rewrite blocks_len|apply words_w; auto; lia|auto|auto|]. rewrite E, bind_ret.
    assert (La : length (fold_left (sha_step (schedule 64 m)) (map Z.of_nat (seq 0 80)) z) = 8%nat) by (rewrite steps_def; now apply steps_len).
    rewrite (add_ok _ _ La Lz). rewrite bind_ret. unfold m. rewrite <- (compress_def z l1).
    replace (zlen p + 128) with (zlen (p ++ l1)) by (zl; lia). rewrite (app_assoc p). replace (zlen (l1 ++ l2) + r - 128) with (zlen l2 + r) by (zl; lia).
    rewrite IH; [|auto|revert L; zl; lia|auto|now apply compress_len|apply compress_w]. cbn [blocks]. rewrite <- L1, ztake_app_exact, zdrop_app_exact, fold_cons. reflexivity.
Qed.
Lemma fold_len : forall bs z, length z = 8%nat -> length (fold_left sha_compress bs z) = 8%nat.
Proof. induction bs as [|b bs IH]; intros z L; [exact L|]. rewrite fold_cons. apply IH. now apply compress_len. Qed.
Lemma fold_w : forall bs z, Forall w64 z -> Forall w64 (fold_left sha_compress bs z).
Proof. induction bs as [|b bs IH]; intros z L; [exact L|]. rewrite fold_cons. apply IH. apply compress_w. Qed.
Lemma hash_fuel : forall f m o n z a r k, hash_loop f m o n z a = Ret r -> hash_loop (f + k) m o n z a = Ret r.
Proof.
  induction f as [|f IH]; intros m o n z a r k H; [discriminate|]. cbn [plus]. rewrite hash_loop_S in *. destruct (128 <=? n); [|exact H].
  destruct (dl64s 16 m o) as [w| |]; [|discriminate|discriminate]. rewrite !bind_ret in *. destruct (for_ 80 0 round (a, w)) as [[a' w']| |]; [|discriminate|discriminate]. rewrite !bind_ret in *.
  destruct (for_ 8 0 _ (a', z)) as [[a'' z'']| |]; [|discriminate|discriminate]. rewrite !bind_ret in *. now apply IH.
Qed.
Lemma hashblocks_ok k p l q r z : bytes l -> zlen l = 128 * Z.of_nat k -> 0 <= r < 128 -> length z = 8%nat -> Forall w64 z -> forall fuel, (k < fuel)%nat ->
  crypto_hashblocks fuel (enc z) (p ++ l ++ q) (zlen p) (zlen l + r) = Ret (enc (fold_left sha_compress (blocks 128 k l) z)).
Proof.
  intros B L Hr Lz Fz fuel Hf. unfold crypto_hashblocks. rewrite load_ok, bind_ret by auto. cbv zeta. pose proof (hash_loop_ok k p l q r z B L Hr Lz Fz) as H.
  apply (hash_fuel _ _ _ _ _ _ _ (fuel - S k)) in H. replace (S k + (fuel - S k))%nat with fuel in H by lia. rewrite H, bind_ret. set (z' := fold_left _ _ z).
  assert (L' : length z' = 8%nat) by now apply fold_len. pose proof (store_ok z' [] (enc z) [] []) as E. rewrite !app_nil_r in E. cbn [app] in E. rewrite L' in E. apply E.
  - rewrite enc_len. unfold zlen. lia.
  - reflexivity.
  - now apply fold_w.
Qed.
(** ** contexts *)
Global Opaque sha_compress crypto_hashblocks.
Lemma copy_loop (f : Z -> out Z) : forall l p m q, zlen m = zlen l -> (forall k, 0 <= k < zlen l -> f (zlen p + k) = Ret (znth 0 l k)) ->
  for_ (length l) (zlen p) (fun i x => let* v := f i in zwrite x i v) (p ++ m ++ q) = Ret (p ++ l ++ q).
Proof.
  induction l as [|b l IH]; intros p m q L H; [assert (m = []) by (apply zlen_0; revert L; zl; lia); subst m; apply for_0|]. destruct m as [|x m]; [revert L; zl; zpos; lia|].
  cbn [length]. rewrite for_S. pose proof (H 0 ltac:(zl; zpos; lia)) as H0. rewrite Z.add_0_r in H0. rewrite H0, bind_ret. cbn [app]. rewrite zwrite_at by auto. rewrite bind_ret. change (znth 0 (b :: l) 0) with b.
  replace (p ++ b :: m ++ q) with ((p ++ [b]) ++ m ++ q) by (now rewrite <- app_assoc). replace (zlen p + 1) with (zlen (p ++ [b])) by (zl; lia). rewrite IH.
  - now rewrite <- app_assoc.
  - revert L. zl. lia.
  - intros k Hk. specialize (H (k + 1) ltac:(zl; lia)). replace (zlen (p ++ [b]) + k) with (zlen p + (k + 1)) by (zl; lia). rewrite H. rewrite znth_consS by lia. do 2 f_equal. lia.
Qed.
Definition rep (full r : list Z) (c : ctx) : Prop :=
  exists n, zlen full = 128 * Z.of_nat n /\ zlen r < 128 /\ bytes r /\ cx c = r ++ zrepeat 0 (256 - zlen r) /\ cb c = zlen full + zlen r /\ cb c < 2 ^ 64 /\
    ch c = enc (fold_left sha_compress (blocks 128 n full) sha_IV).
Lemma iv_ok : iv = enc sha_IV /\ length sha_IV = 8%nat /\ Forall w64 sha_IV.
Proof.
  split; [vm_compute; reflexivity|]. split; [vm_compute; reflexivity|]. assert (E : forallb (fun x => (0 <=? x) && (x <? 2 ^ 64)) sha_IV = true) by (vm_compute; reflexivity).
  apply Forall_forall. intros x Hx. rewrite forallb_forall in E. specialize (E x Hx). unfold w64. lia.
Qed.
Global Opaque sha_IV iv.
Lemma init_ok c : zlen (ch c) = 64 -> zlen (cx c) = 256 -> exists c', sha512_init c = Ret c' /\ rep [] [] c'.
Proof.
  intros Lh Lx. unfold sha512_init. destruct iv_ok as (Ei & Li & Wi).
  assert (Liv : zlen iv = 64) by (rewrite Ei, enc_len; unfold zlen; lia).
  pose proof (copy_loop (zread iv) iv [] (ch c) [] ltac:(lia)) as H. rewrite !app_nil_r in H. cbn [app] in H. change (zlen (@nil Z)) with 0 in H.
  replace (length iv) with 64%nat in H by (unfold zlen in Liv; lia). rewrite H by (intros k Hk; apply zread_ok; lia). rewrite bind_ret.
  assert (Lz : zlen (zrepeat 0 256) = 256) by (apply zlen_zrepeat; lia).
  pose proof (copy_loop (fun _ => Ret 0) (zrepeat 0 256) [] (cx c) [] ltac:(lia)) as H2. rewrite !app_nil_r in H2. cbn [app] in H2. change (zlen (@nil Z)) with 0 in H2.
  replace (length (zrepeat 0 256)) with 256%nat in H2 by (unfold zlen in Lz; lia). change (fun i x => let* v := Ret 0 in zwrite x i v) with (fun (i : Z) (x : list Z) => zwrite x i 0) in H2.
  rewrite H2 by (intros k Hk; rewrite znth_zrepeat by lia; reflexivity). rewrite bind_ret. eexists. split; [reflexivity|]. exists 0%nat. cbn [ch cx cb app blocks fold_left]. change (zlen (@nil Z)) with 0.
  repeat split; try lia; try constructor; try exact Ei.
Qed.
Lemma update_ok p l q full r c : bytes l -> rep full r c -> (r = [] \/ l = []) -> zlen full + zlen r + zlen l < 2 ^ 64 ->
  exists full' r' c', sha512_update (S (length l)) c (p ++ l ++ q) (zlen p) (zlen l) = Ret c' /\ full ++ r ++ l = full' ++ r' /\ (zlen l mod 128 = 0 -> r = [] -> r' = []) /\ rep full' r' c'.
Proof.
  intros B (n & Lf & Lr & Br & Ex & Eb & Hb & Eh) Hrl Hlen. unfold sha512_update. rewrite Eh. set (z := fold_left _ _ sha_IV). destruct iv_ok as (_ & Li & Wi).
  assert (Lz : length z = 8%nat) by now apply fold_len. assert (Wz : Forall w64 z) by now apply fold_w.
  set (k := Z.to_nat (zlen l / 128)). pose proof (zlen_nonneg l) as Pl. destruct (zsplit (128 * Z.of_nat k) l) as (l1 & l2 & El & L1); [unfold k; lia|].
  assert (Hl2 : zlen l2 = zlen l mod 128) by (assert (zlen l = zlen l1 + zlen l2) by (rewrite El; zl; lia); unfold k in *; lia).
  assert (B12 : bytes l1 /\ bytes l2) by (rewrite El in B; now apply bytes_app in B). destruct B12 as [B1 B2].
  assert (Ln : zlen l = zlen l1 + zlen l2) by (rewrite El; zl; lia).
  assert (Eb' : p ++ l ++ q = p ++ l1 ++ (l2 ++ q)) by (rewrite El; now rewrite <- app_assoc).
  pose proof (hashblocks_ok k p l1 (l2 ++ q) (zlen l2) z B1 L1 ltac:(lia) Lz Wz (S (length l))) as H. rewrite <- Eb', <- Ln in H. rewrite H by (unfold k, zlen in *; lia). rewrite bind_ret. cbv zeta.
  change 127 with (2 ^ 7 - 1). rewrite land_mask by lia. change (2 ^ 7) with 128. rewrite <- Hl2.
  replace (Z.to_nat (zlen l2)) with (length l2) by (unfold zlen; lia). rewrite u64_id by (rewrite Eb; zpos; lia).
  assert (Cx : exists r', cx c = [] ++ r' ++ zrepeat 0 (256 - zlen (r ++ l2)) /\ zlen r' = zlen (r ++ l2) /\ (l2 = [] \/ r = []) /\ (r = [] -> r' = zrepeat 0 (zlen l2)) /\ (l2 = [] -> r' = r)).
  { destruct Hrl as [-> | ->].
    - exists (zrepeat 0 (zlen l2)). rewrite Ex. cbn [app]. change (zlen (@nil Z)) with 0. rewrite zlen_zrepeat by lia. repeat split; auto.
      + unfold zrepeat. rewrite <- repeat_app. f_equal. lia.
      + intros ->. reflexivity.
    - assert (l2 = []) by (apply zlen_0; revert Hl2; change (zlen (@nil Z)) with 0; lia). subst l2. exists r. rewrite app_nil_r, Ex. repeat split; auto. }
  destruct Cx as (r' & Cx & Lr' & Hr & Hr1 & Hr2).
  assert (Cp : for_ (length l2) 0 (fun i x => let* v := zread (p ++ l ++ q) (zlen p + zlen l - zlen l2 + i) in zwrite x i v) (cx c) = Ret ((r ++ l2) ++ zrepeat 0 (256 - zlen (r ++ l2)))).
  { destruct Hr as [-> | ->].
    - cbn [length]. rewrite for_0. f_equal. rewrite Cx, Hr2 by auto. now rewrite app_nil_r.
    - rewrite Cx. cbn [app]. apply (copy_loop (fun i => zread (p ++ l ++ q) (zlen p + zlen l - zlen l2 + i)) l2 [] r'); [rewrite Lr'; reflexivity|]. intros j Hj. change (zlen (@nil Z)) with 0.
      rewrite (zread_ok 0) by (zl; zpos; lia). f_equal. rewrite Eb'. rewrite znth_app2 by (zpos; lia). rewrite znth_app2 by (zpos; lia). rewrite znth_app1 by lia. f_equal. lia. }
  rewrite Cp, bind_ret.
  assert (Bl : zlen l mod 128 = 0 -> l2 = []) by (intros; apply zlen_0; lia).
  exists (full ++ l1), (r ++ l2), (mkCtx (enc (fold_left sha_compress (blocks 128 k l1) z)) ((r ++ l2) ++ zrepeat 0 (256 - zlen (r ++ l2))) (cb c + zlen l)). split; [reflexivity|].
  split; [|split].
  - rewrite El. destruct Hrl as [-> | ->]; [cbn [app]; now rewrite <- app_assoc|]. destruct l1; [|discriminate]. cbn in El. subst l2. now rewrite !app_nil_r.
  - intros M ->. cbn [app]. apply zlen_0; lia.
  - exists (n + k)%nat. cbn [ch cx cb]. split; [zl; lia|]. split; [destruct Hr as [-> | ->]; zl; lia|]. split; [now apply bytes_app|]. split; [reflexivity|]. split; [zl; lia|]. split; [lia|].
    rewrite blocks_app by lia. rewrite fold_left_app. reflexivity.
Qed.
Lemma be16 v : 0 <= v < 2 ^ 67 -> be_bytes 16 v = zrepeat 0 7 ++ [v / 2 ^ 64] ++ be_bytes 8 (v mod 2 ^ 64).
Proof.
  intros V. unfold be_bytes. change 16%nat with (8 + 8)%nat. rewrite le_bytes_app. change (256 ^ Z.of_nat 8) with (2 ^ 64). rewrite rev_app_distr. change (2 ^ 64) with (256 ^ Z.of_nat 8). rewrite le_bytes_mod'. rewrite app_assoc. f_equal.
  change (256 ^ Z.of_nat 8) with (2 ^ 64). set (w := v / 2 ^ 64). assert (0 <= w < 8) by (unfold w; lia). clearbody w.
  cbn [le_bytes]. rewrite (Z.mod_small w) by lia. rewrite (Z.div_small w) by lia. reflexivity.
Qed.
Lemma tail_ok full r n t k : zlen full = 128 * Z.of_nat n -> sha_pad (full ++ r) = full ++ t -> zlen t = 128 * Z.of_nat k ->
  sha_blocks (sha_pad (full ++ r)) = fold_left sha_compress (blocks 128 k t) (fold_left sha_compress (blocks 128 n full) sha_IV).
Proof.
  intros Lf E Lt. rewrite E. unfold sha_blocks. replace (Z.to_nat (zlen (full ++ t) / 128)) with (n + k)%nat by (zl; lia). rewrite blocks_app by lia. now rewrite fold_left_app.
Qed.
Lemma zeros_bytes n : bytes (zrepeat 0 n).
Proof. unfold zrepeat, bytes. apply Forall_forall. intros x Hx. apply repeat_spec in Hx. subst. unfold byte. lia. Qed.
Lemma zrep_app (a b : Z) : 0 <= a -> 0 <= b -> zrepeat 0 a ++ zrepeat 0 b = zrepeat 0 (a + b).
Proof. intros. unfold zrepeat. rewrite <- repeat_app. f_equal. lia. Qed.
Lemma end_ok full r c : rep full r c -> exists c', sha512_end c = Ret c' /\ ch c' = sha512 (full ++ r).
Proof.
  intros (n & Lf & Lr & Br & Ex & Eb & Hb & Eh). unfold sha512_end. cbv zeta. pose proof (zlen_nonneg r) as Pr.
  assert (Pt : Z.land (cb c) 127 = zlen r) by (change 127 with (2 ^ 7 - 1); rewrite land_mask by lia; rewrite Eb, Lf; change (2 ^ 7) with 128; lia). rewrite Pt.
  set (N := 256 - 128 * _). assert (HN : N = if zlen r <? 112 then 128 else 256) by (unfold N; destruct (zlen r <? 112); reflexivity). clearbody N.
  assert (zr : forall n, 0 <= n -> zlen (zrepeat 0 n) = n) by (intros; now apply zlen_zrepeat).
  set (g := N - 10 - zlen r). assert (Hg : 0 <= g /\ N <= 256 /\ N = g + 10 + zlen r) by (unfold g; destruct (Z.ltb_spec (zlen r) 112); lia). clearbody g.
  assert (Ez : zrepeat 0 (256 - zlen r) = [0] ++ zrepeat 0 g ++ [0] ++ zrepeat 0 8 ++ zrepeat 0 (256 - N)).
  { change [0] with (zrepeat 0 1). rewrite !zrep_app by lia. f_equal. lia. }
  rewrite Ex, Ez. cbn [app]. rewrite zwrite_at by auto. rewrite bind_ret.
  replace (r ++ 128 :: zrepeat 0 g ++ 0 :: zrepeat 0 8 ++ zrepeat 0 (256 - N)) with ((r ++ [128] ++ zrepeat 0 g) ++ 0 :: zrepeat 0 8 ++ zrepeat 0 (256 - N)) by (rewrite <- !app_assoc; reflexivity).
  assert (Lp : zlen (r ++ [128] ++ zrepeat 0 g) = N - 9) by (rewrite !zlen_app, zr by lia; change (zlen [128]) with 1; lia).
  rewrite zwrite_at by lia. rewrite bind_ret. set (hi := u8 _).
  assert (Ehi : hi = cb c * 8 / 2 ^ 64) by (unfold hi; rewrite Z.shiftr_div_pow2 by lia; rewrite u8_id; zpos; lia). clearbody hi.
  replace ((r ++ [128] ++ zrepeat 0 g) ++ hi :: zrepeat 0 8 ++ zrepeat 0 (256 - N)) with ((r ++ [128] ++ zrepeat 0 g ++ [hi]) ++ zrepeat 0 8 ++ zrepeat 0 (256 - N)) by (rewrite <- !app_assoc; reflexivity).
  assert (Lp2 : N - 8 = zlen (r ++ [128] ++ zrepeat 0 g ++ [hi])) by (rewrite !zlen_app, zr by lia; change (zlen [128]) with 1; change (zlen [hi]) with 1; lia). rewrite Lp2.
  rewrite ts64_ok; [|reflexivity|apply u64_w]. rewrite bind_ret. set (lb := be_bytes 8 _).
  assert (Llb : zlen lb = 8) by apply be_bytes_len. set (t := r ++ [128] ++ zrepeat 0 g ++ [hi] ++ lb).
  replace ((r ++ [128] ++ zrepeat 0 g ++ [hi]) ++ lb ++ zrepeat 0 (256 - N)) with (t ++ zrepeat 0 (256 - N)) by (unfold t; rewrite <- !app_assoc; reflexivity).
  assert (Lt : zlen t = N) by (unfold t; rewrite !zlen_app, zr, Llb by lia; change (zlen [128]) with 1; change (zlen [hi]) with 1; lia).
  assert (Bt : bytes t) by (unfold t; repeat (apply bytes_app; split); auto using zeros_bytes, be_bytes_bytes; repeat constructor; zpos; lia || (unfold lb; apply be_bytes_bytes)).
  set (k := Z.to_nat (N / 128)). assert (Hk : N = 128 * Z.of_nat k /\ (k < 3)%nat) by (unfold k; destruct (Z.ltb_spec (zlen r) 112); lia). destruct iv_ok as (_ & Li & Wi).
  rewrite Eh. pose proof (hashblocks_ok k [] t (zrepeat 0 (256 - N)) 0 (fold_left sha_compress (blocks 128 n full) sha_IV) Bt ltac:(lia) ltac:(lia) (fold_len _ _ Li) (fold_w _ _ Wi) 3 ltac:(lia)) as H.
  cbn [app] in H. change (zlen (@nil Z)) with 0 in H. rewrite Lt, Z.add_0_r in H. rewrite H, bind_ret. eexists. split; [reflexivity|]. cbn [ch].
  unfold sha512. rewrite (tail_ok full r n t k Lf); [reflexivity| |lia]. unfold sha_pad, t. rewrite <- !app_assoc. do 3 f_equal.
  assert (Lfr : zlen (full ++ r) = cb c) by (zl; lia). rewrite Lfr. rewrite be16 by (zpos; lia). rewrite !app_assoc. rewrite zrep_app by lia. f_equal; [f_equal|].
  - f_equal. rewrite Eb, Lf. destruct (Z.ltb_spec (zlen r) 112); lia.
  - now rewrite Ehi, (Z.mul_comm (cb c) 8).
  - unfold lb. rewrite Z.shiftl_mul_pow2 by lia. change (2 ^ 3) with 8. rewrite u64_eq, (Z.mul_comm (cb c) 8). reflexivity.
Qed.
Lemma updates_ok : forall calls full r c, rep full r c -> Forall (fun c => bytes (chunk c)) calls -> allowed (map chunk calls) -> (r = [] \/ concat (map chunk calls) = []) ->
  zlen full + zlen r + zlen (concat (map chunk calls)) < 2 ^ 64 ->
  exists full' r' c', updates c calls = Ret c' /\ full ++ r ++ concat (map chunk calls) = full' ++ r' /\ rep full' r' c'.
Proof.
  induction calls as [|[[p l] q] calls IH]; intros full r c Rp Fa Al Hr Hl; cbn [map concat updates] in *.
  - exists full, r, c. rewrite app_nil_r. auto.
  - change (chunk (p, l, q)) with l in *. inversion Fa as [|? ? B Fa']; subst. change (chunk (p, l, q)) with l in B. destruct Al as [A1 A2]. rewrite zlen_app in Hl.
    destruct (update_ok p l q full r c B Rp) as (f' & r' & c' & E & Ed & Hz & R').
    { destruct Hr as [Hr|Hr]; [auto|]. apply app_eq_nil in Hr. tauto. }
    { pose proof (zlen_nonneg (concat (map chunk calls))). lia. }
    assert (Ln : zlen full + zlen r + zlen l = zlen f' + zlen r') by (apply (f_equal zlen) in Ed; revert Ed; zl; lia).
    destruct (IH f' r' c' R' Fa' A2) as (f2 & r2 & c2 & E2 & Ed2 & R2).
    + destruct A1 as [A1|A1]; [|auto]. destruct Hr as [Hr|Hr]; [left; auto|]. apply app_eq_nil in Hr. tauto.
    + lia.
    + exists f2, r2, c2. rewrite E, bind_ret, E2. split; [reflexivity|]. split; [|exact R2]. rewrite <- Ed2. rewrite (app_assoc f'), <- Ed. now rewrite <- !app_assoc.
Qed.
Lemma run_ok c calls : zlen (ch c) = 64 -> zlen (cx c) = 256 -> Forall (fun c => bytes (chunk c)) calls -> allowed (map chunk calls) -> zlen (concat (map chunk calls)) < 2 ^ 64 ->
  sha_run c calls = Ret (sha512 (concat (map chunk calls))).
Proof.
  intros Lh Lx Fa Al Hl. unfold sha_run. destruct (init_ok c Lh Lx) as (c1 & E1 & R1). rewrite E1, bind_ret.
  destruct (updates_ok calls [] [] c1 R1 Fa Al (or_introl eq_refl) Hl) as (f & r & c2 & E2 & Ed & R2). rewrite E2, bind_ret.
  destruct (end_ok f r c2 R2) as (c3 & E3 & Ec). rewrite E3, bind_ret, Ec, <- Ed. reflexivity.
Qed.
