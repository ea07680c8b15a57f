(** Proof (C57): precisions of more than one digit. *)
From Verif Require Import Base Bits Cstr S_num L_num M_num P_num M_format S_format S_fmtw P_format P_format2 P_format3 P_format4.

Lemma places_nonneg ds : digits_ok 10 ds -> 0 <= places ds.
Proof. induction ds as [|d r IH]; intros H; cbn [places]; [lia|]. inversion H; subst. specialize (IH H3). pose proof (zlen_nonneg r). assert (0 <= d < 10) by assumption. nia. Qed.
Lemma digits_run : forall ds p c q fuel i, digits_ok 10 ds -> digit c = false -> (length ds < fuel)%nat -> 0 <= i ->
  forall a, a + i = zlen p -> digits fuel (p ++ map (Z.add 48) ds ++ c :: q) a i = Ret (i + zlen ds).
Proof.
  induction ds as [|d ds IH]; intros p c q fuel i D C F I a A; (destruct fuel as [|fuel]; [cbn in F; lia|]); cbn [digits map app].
  - rewrite zread_at by exact A. cbn [bind]. rewrite isNumber_digit, C. change (zlen (@nil Z)) with 0. f_equal. lia.
  - inversion D; subst. rewrite zread_at by exact A. cbn [bind]. rewrite isNumber_digit. replace (digit (48 + d)) with true by (unfold digit; lia). cbn [Z.eqb Pos.eqb].
    replace (p ++ (48 + d) :: map (Z.add 48) ds ++ c :: q) with ((p ++ [48 + d]) ++ map (Z.add 48) ds ++ c :: q) by now rewrite <- app_assoc.
    rewrite IH; try assumption; try lia; [rewrite zlen_cons; f_equal; lia|cbn in F; lia|]. rewrite zlen_app, zlen_cons. change (zlen (@nil Z)) with 0. lia.
Qed.
Lemma width_run : forall ds p q i j w a, digits_ok 10 ds -> 0 <= w -> a + j = zlen p -> 0 < j -> i = j + zlen ds -> w + places ds < 2 ^ 64 ->
  width_loop (length ds) (p ++ map (Z.add 48) ds ++ q) a i j w = Ret (w + places ds).
Proof.
  induction ds as [|d ds IH]; intros p q i j w a D W A J I B; cbn [width_loop places length map app]; [f_equal; lia|]. inversion D as [|? ? Hd D']; subst. cbn [places] in B. rewrite zlen_cons in *. pose proof (zlen_nonneg ds). pose proof (places_nonneg ds D').
  rewrite zread_at by exact A. cbn [bind]. replace (j =? 0) with false by lia. cbn [negb]. replace (j + (1 + zlen ds) - 1 - j) with (zlen ds) by lia. replace ((48 + d - 48) * (10 * zlen ds)) with (10 * zlen ds * d) by ring.
  assert (0 <= 10 * zlen ds * d) by nia. rewrite u64_id by lia.
  replace (p ++ (48 + d) :: map (Z.add 48) ds ++ q) with ((p ++ [48 + d]) ++ map (Z.add 48) ds ++ q) by now rewrite <- app_assoc.
  rewrite IH; try assumption; try lia; [f_equal; lia|]. rewrite zlen_app, zlen_cons. change (zlen (@nil Z)) with 0. lia.
Qed.
Lemma at_dots fuel p ds c q args w0 cb t : digits_ok 10 ds -> ds <> [] -> digit c = false -> ulz_precision ds < 2 ^ 64 ->
  fmt_loop collect (S fuel) (p ++ 37 :: 46 :: map (Z.add 48) ds ++ c :: q) true (zlen p) args w0 cb t =
  fmt_loop collect fuel (p ++ 37 :: 46 :: map (Z.add 48) ds ++ c :: q) true (zlen p + 1 + zlen ds) args (ulz_precision ds) cb t.
Proof.
  intros D N C B. cbn [fmt_loop negb]. replace (zlen p + 1) with (zlen p + (1 + 0)) by lia. rewrite zread2 by lia. change (zread (46 :: map (Z.add 48) ds ++ c :: q) 0) with (Ret 46). cbn [bind Z.eqb Pos.eqb].
  set (f := p ++ 37 :: 46 :: map (Z.add 48) ds ++ c :: q). assert (Ef : f = (p ++ [37; 46]) ++ map (Z.add 48) ds ++ c :: q) by (unfold f; now rewrite <- app_assoc).
  assert (Lp : zlen (p ++ [37; 46]) = zlen p + 2) by (rewrite zlen_app; reflexivity).
  assert (Ed : digits (S (length f)) f (zlen p + (1 + 0) + 1) 0 = Ret (zlen ds)).
  { rewrite Ef. rewrite (digits_run ds (p ++ [37; 46])); try assumption; try lia; [f_equal; lia|]. rewrite !app_length, map_length. cbn [length]. lia. }
  rewrite Ed. cbn [bind]. destruct ds as [|d ds]; [now destruct N|]. pose proof (zlen_nonneg ds). rewrite zlen_cons in *. replace (1 + zlen ds =? 0) with false by lia.
  assert (Ew : width_loop (Z.to_nat (1 + zlen ds)) f (zlen p + (1 + 0) + 1) (1 + zlen ds) 0 0 = Ret (ulz_precision (d :: ds))).
  { rewrite Ef. inversion D as [|? ? Hd D']; subst. replace (Z.to_nat (1 + zlen ds)) with (S (length ds)) by (unfold zlen; lia). cbn [width_loop map app ulz_precision] in *. rewrite zread_at by lia. cbn [bind Z.eqb negb].
    pose proof (places_nonneg ds D'). rewrite u64_id by lia.
    replace ((p ++ [37; 46]) ++ (48 + d) :: map (Z.add 48) ds ++ c :: q) with ((p ++ [37; 46; 48 + d]) ++ map (Z.add 48) ds ++ c :: q) by (now rewrite <- !app_assoc).
    rewrite width_run; try assumption; try lia; [f_equal; lia|]. rewrite zlen_app. change (zlen [37; 46; 48 + d]) with 3. lia. }
  rewrite Ew. cbn [bind]. do 2 f_equal; lia.
Qed.
(** P_format3.nconv_ok for every width the number buffer has room for *)
Lemma nconv_wide inn base w nf cbuf t : 0 <= inn < 2 ^ 64 -> base = 10 \/ base = 16 -> 1 <= w -> w + b2z (neg_of inn nf) <= 31 -> 0 <= nf -> zlen cbuf = 32 ->
  exists ds cbuf', zlen cbuf' = 32 /\ digits_ok base ds /\
    nconv collect inn base w nf cbuf t = Ret (Some (cbuf', t ++ sign_str (neg_of inn nf) ++ map (digit_char (negb (Z.land nf 4 =? 0))) ds)) /\
    zlen ds = w /\ pos_value base ds = mag_of inn nf mod base ^ w.
Proof.
  intros N B W0 W Nf C. assert (Hb : 2 <= base <= 62 /\ base mod 2 = 0 /\ (base <=? 36) = true) by (destruct B as [-> | ->]; repeat split; lia). destruct Hb as (Hb & Hm & Hl). unfold nconv. cbv zeta. replace (w =? 0) with false by lia. cbn [negb].
  assert (Bz : 0 <= b2z (neg_of inn nf)) by (destruct (neg_of inn nf); cbn; lia).
  destruct (lor1 nf Nf) as (L0 & L2 & L4). destruct (nts_padded inn base cbuf w (Z.lor nf 1) N Hb Hm ltac:(lia)) as (ds & off & Lds & D & V & E & O & _).
  { rewrite neg_lor by assumption. lia. }
  cbv zeta in E. rewrite (O L0) in E. rewrite neg_lor in * by assumption. assert (Hm' : mag_of inn (Z.lor nf 1) = mag_of inn nf) by (unfold mag_of; now rewrite neg_lor). rewrite Hm' in V.
  set (text := sign_str (neg_of inn nf) ++ map (digit_char (lower_of base (Z.lor nf 1))) ds) in *.
  assert (Lt : zlen text <= 31) by (unfold text; zl; destruct (neg_of inn nf); cbn [sign_str b2z] in *; zl; lia).
  assert (Et : sign_str (neg_of inn nf) ++ map (digit_char (lower_of base (Z.lor nf 1))) ds ++ [0] = text ++ [0]) by (unfold text; now rewrite <- app_assoc). rewrite Et in E. rewrite E. cbn [bind].
  assert (Nz : nz text) by (now apply (text_nz _ _ base)). rewrite <- app_assoc. cbn [app]. rewrite gstr0 by exact Nz. cbn [bind].
  exists ds, (text ++ 0 :: zdrop (zlen (text ++ [0])) cbuf). split; [|split; [exact D|split; [|auto]]].
  + pose proof (zlen_nonneg text). rewrite zlen_app, zlen_cons, zlen_zdrop by (zl; lia). zl. lia.
  + do 4 f_equal. unfold text, lower_of. rewrite Hl, L4. cbn [andb]. try rewrite andb_true_r. reflexivity.
Qed.
(** and where it has no room *)
Lemma fill_over n : forall buf r i, 0 <= r + i <= zlen buf -> zlen buf < r + i + Z.of_nat n -> nts_fill n buf r i = UB.
Proof.
  induction n as [|n IH]; intros buf r i H L; [lia|]. cbn [nts_fill]. destruct (Z_lt_dec (r + i) (zlen buf)) as [In|Out].
  - rewrite zwrite_ok by lia. cbn [bind]. assert (E : zlen (ztake (r + i) buf ++ 48 :: zdrop (r + i + 1) buf) = zlen buf) by (rewrite zlen_app, zlen_cons, zlen_ztake, zlen_zdrop by lia; lia). apply IH; lia.
  - now rewrite zwrite_oob by lia.
Qed.
Lemma fill_len n : forall buf r i b, nts_fill n buf r i = Ret b -> zlen b = zlen buf.
Proof.
  induction n as [|n IH]; intros buf r i b; cbn [nts_fill]; [congruence|]. unfold zwrite at 1. destruct (_ && _) eqn:G; [|discriminate]. cbn [bind]. intros H. apply IH in H. rewrite H. rewrite zlen_app, zlen_cons, zlen_ztake, zlen_zdrop by lia. lia.
Qed.
Lemma nts_over number base buffer w flags : 0 <= number < 2 ^ 64 -> 2 <= base <= 62 -> base mod 2 = 0 -> 1 <= w -> zlen buffer <= w + b2z (neg_of number flags) -> 32 <= zlen buffer -> numberToString number base buffer w flags = UB.
Proof.
  intros Hn Hb He W L B. unfold numberToString. change conv_cypher_len with 62. rewrite He. replace (62 <? base) with false by lia. cbn [Z.eqb negb orb]. replace (w =? 0) with false by lia. cbn [bind].
  rewrite sign_test by assumption. fold (neg_of number flags). set (r := if neg_of number flags then 1 else 0). assert (R : r = b2z (neg_of number flags)) by (unfold r; destruct (neg_of _ _); reflexivity). assert (0 <= r <= 1) by (rewrite R; destruct (neg_of _ _); cbn; lia).
  destruct (nts_fill (Z.to_nat w) buffer r 0) as [b| |] eqn:F.
  - cbn [bind]. apply fill_len in F. now rewrite zwrite_oob by lia.
  - reflexivity.
  - now apply fill_nf in F.
Qed.
Lemma nconv_over inn base w nf cbuf t : 0 <= inn < 2 ^ 64 -> base = 10 \/ base = 16 -> 0 <= nf -> 1 <= w -> 32 <= w + b2z (neg_of inn nf) -> zlen cbuf = 32 -> nconv collect inn base w nf cbuf t = UB.
Proof.
  intros Hn B Nf W0 W C. unfold nconv. cbv zeta. replace (w =? 0) with false by lia. cbn [negb]. rewrite nts_over; try reflexivity; try (destruct B as [-> | ->]; lia). rewrite neg_lor by assumption. lia.
Qed.
(** one directive *)
Lemma int_text_digits cv ps v r cbuf : digits_ok 10 ps -> ps <> [] -> ulz_precision ps < 2 ^ 64 -> zlen cbuf = 32 ->
  let w := ulz_precision ps in let ng := neg_of (int_num cv v) (item_flags cv) in
  let run := text_run (37 :: 46 :: map (Z.add 48) ps ++ conv_fmt cv :: 0 :: r) [VInt v] cbuf in
  (w = 0 -> run = text_run (37 :: conv_fmt cv :: 0 :: r) [VInt v] cbuf) /\
  (1 <= w -> w + b2z ng <= 31 -> exists ds, digits_ok (conv_base cv) ds /\ zlen ds = w /\
    pos_value (conv_base cv) ds = mag_of (int_num cv v) (item_flags cv) mod conv_base cv ^ w /\ run = Ret (false, sign_str ng ++ map (digit_char (conv_lower cv)) ds)) /\
  (32 <= w + b2z ng -> run = UB).
Proof.
  intros D N W C w ng. cbv zeta. unfold text_run. set (f := 37 :: 46 :: map (Z.add 48) ps ++ conv_fmt cv :: 0 :: r). destruct (fuel_ge f 4) as (m & Em); [unfold f; cbn [length]; rewrite app_length; cbn [length]; lia|]. rewrite Em. cbn [Nat.add].
  assert (E1 : forall k, fmt_loop collect (S (S (S k))) f false 0 [VInt v] 0 cbuf [] = fmt_loop collect (S k) f true (1 + zlen ps) [VInt v] w cbuf []).
  { intros k. unfold f. rewrite (at_percent _ [] (46 :: map (Z.add 48) ps ++ conv_fmt cv :: 0 :: r)). rewrite (at_dots _ [] ps (conv_fmt cv) (0 :: r)); try assumption; [reflexivity|apply conv_no_digit]. }
  rewrite E1. destruct (exists_last N) as (ps0 & d & Eps).
  assert (Ef : f = (37 :: 46 :: map (Z.add 48) ps0) ++ (48 + d) :: conv_fmt cv :: 0 :: r) by (unfold f; rewrite Eps, map_app, <- app_assoc; reflexivity).
  assert (Lp : zlen (37 :: 46 :: map (Z.add 48) ps0) = 1 + zlen ps). { rewrite Eps, zlen_app, !zlen_cons. change (zlen (@nil Z)) with 0. unfold zlen. rewrite map_length. lia. }
  assert (E2 : forall k, fmt_loop collect (S k) f true (1 + zlen ps) [VInt v] w cbuf [] = (let* r0 := nconv collect (int_num cv v) (conv_base cv) w (item_flags cv) cbuf [] in
    match r0 with None => Ret (true, []) | Some (cb, t) => fmt_loop collect k f false (1 + zlen ps + 2) [] 0 cb t end)).
  { intros k. rewrite Ef, <- Lp. apply dir_int. }
  rewrite E2. assert (E3 : forall k cb t, fmt_loop collect (S k) f false (1 + zlen ps + 2) [] 0 cb t = Ret (false, t)).
  { intros k cb t. replace f with ((37 :: 46 :: map (Z.add 48) ps ++ [conv_fmt cv]) ++ 0 :: r) by (unfold f; cbn [app]; now rewrite <- app_assoc).
    replace (1 + zlen ps + 2) with (zlen (37 :: 46 :: map (Z.add 48) ps ++ [conv_fmt cv])); [apply at_end|]. rewrite !zlen_cons, zlen_app. unfold zlen. rewrite map_length. cbn [length]. lia. }
  assert (B : conv_base cv = 10 \/ conv_base cv = 16) by (destruct cv; cbn; auto). assert (R : 0 <= int_num cv v < 2 ^ 64). { pose proof (u32_range v). destruct cv; cbn [int_num]; try apply u64_range; lia. }
  assert (Fl : 0 <= item_flags cv) by (destruct cv; cbn; lia). split; [|split].
  - intros W0. rewrite W0. destruct (fuel_ge (37 :: conv_fmt cv :: 0 :: r) 3) as (m' & Em'); [cbn [length]; lia|]. rewrite Em'. cbn [Nat.add]. rewrite (at_percent _ [] (conv_fmt cv :: 0 :: r)). rewrite (dir_int cv 0 v _ [] 37 (0 :: r)).
    destruct (nconv collect (int_num cv v) (conv_base cv) 0 (item_flags cv) cbuf []) as [[[cb t]|]| |]; cbn [bind]; try reflexivity. rewrite E3. now rewrite (at_end _ ([37] ++ [conv_fmt cv]) r).
  - intros W1 W2. destruct (nconv_wide (int_num cv v) (conv_base cv) w (item_flags cv) cbuf [] R B W1 W2 Fl C) as (ds & cb & Cb & Dd & E & L & V). rewrite E. cbn [bind]. exists ds. repeat (split; [assumption|]).
    rewrite E3. replace (negb (Z.land (item_flags cv) 4 =? 0)) with (conv_lower cv) by now destruct cv. reflexivity.
  - intros W1. rewrite nconv_over; try assumption; try reflexivity. fold ng. destruct ng; cbn [b2z] in W1; lia.
Qed.
(** the sum is the number only for one digit, or where zeros come first *)
Lemma pow_ten k : 0 <= k -> 10 * k <= 10 ^ k.
Proof. intros K. pattern k. apply natlike_ind; [cbn; lia| |exact K]. intros x Hx H. rewrite Z.pow_succ_r by lia. destruct (Z.eq_dec x 0) as [->|]; [cbn; lia|]. lia. Qed.
Lemma places_le ds : digits_ok 10 ds -> places ds <= pos_value 10 ds.
Proof.
  induction ds as [|d r IH]; intros H; [cbn; lia|]. inversion H as [|? ? Hd H']; subst. specialize (IH H'). cbn [places]. cbn [pos_value]. pose proof (pow_ten (zlen r) (zlen_nonneg r)). nia.
Qed.
Lemma precision_lt d r : digits_ok 10 (d :: r) -> 1 <= d -> r <> [] -> ulz_precision (d :: r) < pos_value 10 (d :: r).
Proof.
  intros H D N. inversion H as [|? ? Hd H']; subst. cbn [ulz_precision]. cbn [pos_value]. pose proof (places_le r H'). assert (1 <= zlen r) by (destruct r; [now destruct N|rewrite zlen_cons; pose proof (zlen_nonneg r); lia]).
  assert (10 ^ 1 <= 10 ^ zlen r) by (apply Z.pow_le_mono_r; lia). change (10 ^ 1) with 10 in *. nia.
Qed.
