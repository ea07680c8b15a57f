(** Proofs for M_crcmain. *)
From Verif Require Import Base M_crc32 S_crc32 D_crc32 P_crc32 M_ex P_ex2 S_num S_hex M_crcmain S_crcmain.

Definition feedc (rp s : Z) (l : list Z) : Z := fold_left (upd rp) l s.
Lemma feedc_u32 poly rp l s : gen_bits poly = bitsn 32 rp -> 0 <= rp < 2 ^ 32 -> bytes l -> 0 <= s < 2 ^ 32 -> 0 <= feedc rp s l < 2 ^ 32.
Proof. intros G R B S. exact (proj2 (wire_ok poly rp G R l s B S)). Qed.
Lemma bytes_ztake n l : bytes l -> bytes (ztake n l).
Proof. intros B. unfold ztake. rewrite <- (firstn_skipn (Z.to_nat n) l) in B. apply Forall_app in B. apply B. Qed.
Lemma bytes_zdrop n l : bytes l -> bytes (zdrop n l).
Proof. intros B. unfold zdrop. rewrite <- (firstn_skipn (Z.to_nat n) l) in B. apply Forall_app in B. apply B. Qed.
Definition tables (rp : Z) (ts : list (list Z)) : Prop := forall j i, (j < 4)%nat -> 0 <= i < 256 -> T_at ts (Z.of_nat j) i = Ret (steps rp (8 * (j + 1)) i).
Lemma update_all rp ts l q s f : 0 <= rp < 2 ^ 32 -> tables rp ts -> (length l <= f)%nat -> bytes l -> 0 <= s < 2 ^ 32 -> Update (S f) ts s (l ++ q) 0 (zlen l) = Ret (feedc rp s l).
Proof.
  intros R T F B S. exact (update_ok rp ts R (fun i => T 0%nat i ltac:(lia)) (fun i => T 1%nat i ltac:(lia)) (fun i => T 2%nat i ltac:(lia)) (fun i => T 3%nat i ltac:(lia)) f l [] q s F B S).
Qed.
Lemma block_split N (content : list Z) : 0 < N -> exists data rest, ztake N content = data /\ content = data ++ rest /\ zdrop (zlen data) content = rest /\ 0 <= zlen data <= N /\ (zlen data = 0 -> content = []).
Proof.
  intros HN. pose proof (zlen_nonneg content). destruct (Z_le_dec (zlen content) N) as [X|X].
  - exists content, []. rewrite ztake_all, zdrop_all, app_nil_r by lia. repeat split; try lia. apply zlen_0.
  - exists (ztake N content), (zdrop N content). rewrite zlen_ztake by lia. rewrite ztake_zdrop. repeat split; lia.
Qed.
Section Run.
Variables (tc ts : list (list Z)).
Hypothesis HTc : tables RP32C tc.
Hypothesis HTs : tables RP32 ts.
Lemma block_ok data q c s r : bytes data -> 0 <= c < 2 ^ 32 -> 0 <= s < 2 ^ 32 -> 0 <= r < 2 ^ 32 ->
  Update (S (Z.to_nat (zlen data))) tc c (data ++ q) 0 (zlen data) = Ret (feedc RP32C c data) /\
  Update (S (Z.to_nat (zlen data))) ts s (data ++ q) 0 (zlen data) = Ret (feedc RP32 s data) /\
  r4_update (Z.to_nat (zlen data)) r (data ++ q) 0 = Ret (feedc RP32 r data).
Proof using All.
  intros B C S R. destruct gen32 as [G1 R1]. destruct gen32c as [G2 R2]. assert (El : Z.to_nat (zlen data) = length data) by (unfold zlen; lia). rewrite !El. split; [|split].
  - now apply update_all.
  - now apply update_all.
  - exact (r4_update_ok data [] q r B R).
Qed.
Lemma loop_all : forall fuel content buf c s r, bytes content -> zlen buf = 65536 -> 0 <= c < 2 ^ 32 -> 0 <= s < 2 ^ 32 -> 0 <= r < 2 ^ 32 -> (length content < fuel)%nat ->
  read_loop fuel tc ts (-1) content buf c s r = Ret (feedc RP32C c content, feedc RP32 s content, feedc RP32 r content).
Proof using All.
  destruct gen32 as [G1 R1]. destruct gen32c as [G2 R2].
  induction fuel as [|fuel IH]; intros content buf c s r B L C S R F; [lia|]. cbn [read_loop]. cbn [Z.eqb Pos.eqb negb]. destruct (block_split 65536 content ltac:(lia)) as (data & rest & Ed & Ec & Er & Ld & Ez). rewrite Ed. clear Ed.
  destruct (zsplit (zlen data) buf ltac:(lia)) as (b1 & b2 & -> & Lb). change (zwrites (b1 ++ b2) 0 data) with (zwrites ([] ++ b1 ++ b2) 0 data). rewrite zwrites_at by (reflexivity || lia). cbn [bind app].
  destruct (Z.eqb_spec (zlen data) 0) as [E|E].
  - rewrite (Ez E). reflexivity.
  - assert (Bd : bytes data /\ bytes rest) by (rewrite Ec in B; now apply Forall_app in B). destruct Bd as [Bd Br]. destruct (block_ok data b2 c s r Bd C S R) as (-> & -> & ->). cbn [bind]. rewrite Er. rewrite IH.
    + unfold feedc. rewrite <- !fold_left_app, <- Ec. reflexivity.
    + exact Br.
    + zl. revert L. zl. lia.
    + now apply (feedc_u32 POLY32C).
    + now apply (feedc_u32 POLY32).
    + now apply (feedc_u32 POLY32).
    + rewrite Ec, app_length in F. unfold zlen in E. lia.
Qed.
Lemma loop_some fuel cnt content buf c s r : cnt <> -1 -> bytes content -> zlen buf = 65536 -> 0 <= c < 2 ^ 32 -> 0 <= s < 2 ^ 32 -> 0 <= r < 2 ^ 32 ->
  let data := ztake (u64 cnt) content in
  read_loop (S fuel) tc ts cnt content buf c s r = if 65536 <? zlen data then UB else Ret (feedc RP32C c data, feedc RP32 s data, feedc RP32 r data).
Proof using All.
  intros N B L C S R data. cbn [read_loop]. replace (cnt =? -1) with false by lia. fold data. cbn [negb]. destruct (Z.ltb_spec 65536 (zlen data)) as [X|X].
  - replace (zwrites buf 0 data) with (@UB (list Z)); [reflexivity|]. unfold zwrites. replace (_ && _) with false; [reflexivity|]. lia.
  - pose proof (zlen_nonneg data). destruct (zsplit (zlen data) buf ltac:(lia)) as (b1 & b2 & -> & Lb). change (b1 ++ b2) with ([] ++ b1 ++ b2). rewrite zwrites_at by (reflexivity || lia). cbn [bind app].
    assert (Bd : bytes data) by now apply bytes_ztake. destruct (Z.eqb_spec (zlen data) 0) as [E|E]; [apply zlen_0 in E; rewrite E; reflexivity|]. destruct (block_ok data b2 c s r Bd C S R) as (-> & -> & ->). reflexivity.
Qed.
End Run.
Lemma hexline bs : bytes bs -> flat_map pct02x bs = hex_of bs.
Proof.
  unfold hex_of. intros B. rewrite flat_map_concat_map. f_equal. apply map_ext_in. intros b H. unfold bytes in B. rewrite Forall_forall in B. specialize (B b H). unfold byte in B.
  assert (X : forall v, 0 <= v < 16 -> xdigit v = digit_char true v). { intros v Hv. unfold xdigit, digit_char. destruct (v <? 10) eqn:E; [reflexivity|]. replace (v <? 36) with true by lia. lia. }
  unfold pct02x. rewrite !X; [reflexivity| |]; [apply Z.mod_pos_bound; lia|]. split; [apply Z.div_pos; lia|]. apply Z.div_lt_upper_bound; lia.
Qed.
(** the selftests *)
Lemma tests_ok res : zlen res = 4 -> exists tc ts, InitTables POLY32C = Ret tc /\ InitTables POLY32 = Ret ts /\
  (tables RP32C tc) /\
  (tables RP32 ts) /\
  selftest ts res = Ret 0xcbf43926 /\ selftest tc res = Ret 0xe3069283 /\ selftest_r4 = Ret 0x340bc6d9.
Proof.
  intros L. destruct (check_ok _ _ check32c) as (tc & Ec & Hc). destruct (check_ok _ _ check32) as (ts & Es & Hs). exists tc, ts. split; [exact Ec|]. split; [exact Es|]. split; [exact Hc|]. split; [exact Hs|].
  destruct gen32 as [G1 R1]. destruct gen32c as [G2 R2]. assert (B : bytes [49; 50; 51; 52; 53; 54; 55; 56; 57]) by (repeat constructor; unfold byte; lia). assert (I0 : 0 <= Init < 2 ^ 32) by (cbv; split; congruence || discriminate).
  assert (R4 : exists a b c d, res = [a; b; c; d]). { destruct res as [|a [|b [|c [|d [|e res]]]]]; try discriminate L; [eauto|]. revert L. zl. pose proof (zlen_nonneg res). lia. } destruct R4 as (a & b & c & d & ->).
  split; [|split; [|vm_compute; reflexivity]]; unfold selftest.
  - change (Update 10 ts Init digits9 0 9) with (Update 10 ts Init ([49; 50; 51; 52; 53; 54; 55; 56; 57] ++ [0]) 0 (zlen [49; 50; 51; 52; 53; 54; 55; 56; 57])). rewrite (update_all RP32 ts [49; 50; 51; 52; 53; 54; 55; 56; 57] _ _ 9 R1 Hs (le_n _) B I0). vm_compute. reflexivity.
  - change (Update 10 tc Init digits9 0 9) with (Update 10 tc Init ([49; 50; 51; 52; 53; 54; 55; 56; 57] ++ [0]) 0 (zlen [49; 50; 51; 52; 53; 54; 55; 56; 57])). rewrite (update_all RP32C tc [49; 50; 51; 52; 53; 54; 55; 56; 57] _ _ 9 R2 Hc (le_n _) B I0). vm_compute. reflexivity.
Qed.
Lemma final_part poly rp data b : gen_bits poly = bitsn 32 rp -> 0 <= rp < 2 ^ 32 -> bytes data -> zlen b = 4 ->
  exists st' c, Final b (feedc rp Init data) = Ret (st', c) /\ zlen c = 4 /\ bytes c /\ wire_bits c = crc poly data.
Proof.
  intros G R B L. assert (I0 : 0 <= Init < 2 ^ 32) by (cbv; split; congruence || discriminate). destruct (wire_ok poly rp G R data Init B I0) as [W U]. destruct (final_ok (feedc rp Init data) b [] U L) as (c & st' & E & Lc & Bc & Wc). rewrite !app_nil_r in E. exists st', c. split; [exact E|]. split; [exact Lc|]. split; [exact Bc|]. rewrite Wc. unfold crc, feedc. rewrite <- W. reflexivity.
Qed.
Lemma end_ok data b1 b2 : bytes data -> zlen b1 = 4 -> zlen b2 = 4 -> exists t,
  (let* (_, crc32c) := Final b1 (feedc RP32C Init data) in
   let* (_, crc32) := Final b2 (feedc RP32 Init data) in
   Ret (Some (line label_c crc32c ++ line label_s crc32 ++ line label_r (r4_final (feedc RP32 r4_init data))))) = Ret (Some t) /\ report data t.
Proof.
  intros B L1 L2. destruct gen32 as [G1 R1]. destruct gen32c as [G2 R2]. destruct (final_part _ _ data b1 G2 R2 B L1) as (x & c & -> & Lc & Bc & Wc). destruct (final_part _ _ data b2 G1 R1 B L2) as (y & s & -> & Ls & Bs & Ws). cbn [bind].
  assert (I0 : 0 <= r4_init < 2 ^ 32) by (cbv; split; congruence || discriminate). destruct (wire_ok POLY32 RP32 G1 R1 data r4_init B I0) as [W U]. destruct (r4_final_ok _ U) as (Wr & Br & Lr).
  assert (Wr' : wire_bits (r4_final (feedc RP32 r4_init data)) = map negb (crc POLY32 data)).
  { unfold feedc. rewrite Wr, <- W. unfold crc. rewrite map_map, (map_ext _ (fun b => b)) by (intros []; reflexivity). rewrite map_id. reflexivity. }
  eexists. split; [reflexivity|]. exists (hex_of c), (hex_of s), (hex_of (r4_final (feedc RP32 r4_init data))).
  split; [exists c; repeat split; assumption|]. split; [exists s; repeat split; assumption|]. split; [eexists; split; [exact Lr|]; split; [exact Br|]; split; [exact Wr'|reflexivity]|].
  unfold line. rewrite !hexline by assumption. rewrite <- !app_assoc. reflexivity.
Qed.
