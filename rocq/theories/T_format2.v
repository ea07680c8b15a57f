(** C57 continued: directives ulz_vsnprintf rejects, and what it prints where it differs from C. *)
From Verif Require Import Base Bits Cstr S_num L_num M_format S_format P_format P_format3 P_format4 T_format.

(** C57: supported items and then something that is no directive: the result is -1, and the buffer has the text of the
    items, as far as it fits, without a NUL *)
Theorem c57_no_directive items q args cbuf : Forall supported items -> zlen cbuf = 32 -> no_dir q ->
  exists ss, Forall2 prints items ss /\ let fmt := concat (map item_fmt items) ++ 37 :: q in let args := concat (map item_args items) ++ args in
    (forall n, ulz_snprintf None n fmt args cbuf = Ret (-1, None)) /\
    forall d size, 1 <= size <= zlen d -> ulz_snprintf (Some d) size fmt args cbuf = Ret (-1, Some (written0 size (concat ss) d)).
Proof.
  intros S C N. destruct (items_fail items q args cbuf S C (no_dir_fails q args N)) as (ss & P & E). exists ss. split; [exact P|]. cbv zeta. unfold ulz_snprintf.
  split; [intros n|intros d size H]; rewrite run_ok by (exact I || exact H); rewrite E; reflexivity.
Qed.
Print Assumptions c57_no_directive.
(** C57: the same for %s and a null pointer *)
Theorem c57_null_string items q args cbuf : Forall supported items -> zlen cbuf = 32 ->
  exists ss, Forall2 prints items ss /\ let fmt := concat (map item_fmt items) ++ 37 :: 115 :: q in let args := concat (map item_args items) ++ VStr None :: args in
    (forall n, ulz_snprintf None n fmt args cbuf = Ret (-1, None)) /\
    forall d size, 1 <= size <= zlen d -> ulz_snprintf (Some d) size fmt args cbuf = Ret (-1, Some (written0 size (concat ss) d)).
Proof.
  intros S C. destruct (items_fail items (115 :: q) (VStr None :: args) cbuf S C) as (ss & P & E); [intros; apply null_fails|]. exists ss. split; [exact P|]. cbv zeta. unfold ulz_snprintf.
  split; [intros n|intros d size H]; rewrite run_ok by (exact I || exact H); rewrite E; reflexivity.
Qed.
Print Assumptions c57_null_string.
(** ulz_snprintf writes the text t, as much of it as fits *)
Definition gives (fmt : list Z) (args : list arg) (cbuf t : list Z) : Prop :=
  forall d size, 1 <= size <= zlen d -> ulz_snprintf (Some d) size fmt args cbuf = Ret (Z.min (size - 1) (zlen t), Some (written size t d)).
Lemma gives_run fmt args cbuf t : text_run fmt args cbuf = Ret (false, t) -> gives fmt args cbuf t.
Proof.
  intros E d size H. unfold ulz_snprintf. rewrite run_ok by exact H. rewrite E. cbv zeta. unfold written. do 2 f_equal.
  destruct (Z_le_dec (size - 1) (zlen t)); [rewrite zlen_ztake by lia; lia|rewrite ztake_all by lia; lia].
Qed.
Lemma zlen_map {A B} (f : A -> B) l : zlen (map f l) = zlen l.
Proof. unfold zlen. now rewrite map_length. Qed.
(** C57, refuted: %x and %X of an int that is negative give sixteen digits, those of the 64-bit number; C has the eight
    of the 32-bit number *)
Theorem c57_hex_negative_refuted cv v r cbuf : cv = Cx \/ cv = CX -> - 2 ^ 31 <= v < 0 -> zlen cbuf = 32 ->
  exists t, gives (37 :: conv_fmt cv :: 0 :: r) [VInt v] cbuf t /\ number_text 1 cv (v + 2 ^ 64) t /\ zlen t = 16 /\ forall s, number_text 1 cv (v + 2 ^ 32) s -> zlen s = 8.
Proof.
  intros Hc V C. destruct (int_text cv v r cbuf C) as (ds & R & E).
  assert (Ei : int_num cv v = v + 2 ^ 64). { unfold int_num. destruct Hc as [-> | ->]; rewrite s32_id by lia; unfold u64; rewrite <- (Z_mod_plus_full v 1), Z.mod_small; lia. }
  assert (Eb : conv_base cv = 16) by (destruct Hc as [-> | ->]; reflexivity). rewrite Ei in *.
  assert (N : neg_of (v + 2 ^ 64) (item_flags cv) = false) by (destruct Hc as [-> | ->]; reflexivity). assert (M : mag_of (v + 2 ^ 64) (item_flags cv) = v + 2 ^ 64) by (unfold mag_of; now rewrite N). rewrite N in E. rewrite M in R. cbn [sign_str app] in E.
  assert (K : forall b n ds, 2 <= b -> is_repr b n ds -> forall k, 0 < k -> b ^ (k - 1) <= n < b ^ k -> zlen ds = k).
  { intros b n l B X k Hk Hn. destruct (repr_low b n l B X) as [[-> ->]|(L & Y & P)]; [pose proof (Z.pow_pos_nonneg b (k - 1)); lia|].
    assert (A1 : zlen l - 1 < k) by (apply (Z.pow_lt_mono_r_iff b); lia). assert (A2 : k - 1 < zlen l) by (apply (Z.pow_lt_mono_r_iff b); lia). lia. }
  assert (L : zlen ds = 16) by (apply (K (conv_base cv) _ _ ltac:(lia) R); rewrite ?Eb; lia).
  exists (map (digit_char (conv_lower cv)) ds). split; [now apply gives_run|]. split; [|split; [now rewrite zlen_map|]].
  - exists ds. rewrite Z.abs_eq by lia. split; [exact R|]. replace (v + 2 ^ 64 <? 0) with false by lia. rewrite L. reflexivity.
  - intros s (ds' & R' & ->). rewrite Z.abs_eq in R' by lia. assert (L' : zlen ds' = 8) by (apply (K (conv_base cv) _ _ ltac:(lia) R'); rewrite ?Eb; lia). replace (v + 2 ^ 32 <? 0) with false by lia. cbn [sign_str app]. rewrite zlen_map, zlen_app, L'. reflexivity.
Qed.
Print Assumptions c57_hex_negative_refuted.
(** C57, refuted: where a precision is less than the number of digits the first digits are missing, for every int *)
Theorem c57_low_digits_refuted cv w v r cbuf : 1 <= w <= 9 -> in_type Mnone cv v -> conv_base cv ^ w <= Z.abs v -> zlen cbuf = 32 ->
  exists ds, zlen ds = w /\ digits_ok (conv_base cv) ds /\ pos_value (conv_base cv) ds = Z.abs v mod conv_base cv ^ w /\
    let t := sign_str (v <? 0) ++ map (digit_char (conv_lower cv)) ds in
    gives (37 :: 46 :: (48 + w) :: conv_fmt cv :: 0 :: r) [VInt v] cbuf t /\ forall s, number_text w cv v s -> zlen t < zlen s.
Proof.
  intros W T V C. destruct (int_text_prec cv w v r cbuf W C) as (ds & D & L & P & E). destruct (item_num_ok Mnone cv v T) as (_ & Ng & Mg).
  replace (item_num Mnone cv v) with (int_num cv v) in * by now destruct cv. rewrite Ng, Mg in *. exists ds. split; [exact L|]. split; [exact D|]. split; [exact P|]. cbv zeta. split; [now apply gives_run|].
  intros s (ds' & R & ->). rewrite !zlen_app, !zlen_map, zlen_app. assert (B : 2 <= conv_base cv) by (destruct cv; cbn; lia).
  assert (w < zlen ds'). { destruct (repr_low _ _ _ B R) as [[Z0 ->]|(L0 & Y & P0)]; [pose proof (Z.pow_pos_nonneg (conv_base cv) w); lia|]. apply (Z.pow_lt_mono_r_iff (conv_base cv)); lia. }
  pose proof (zlen_nonneg (zrepeat 0 (Z.max 0 (w - zlen ds')))). lia.
Qed.
Print Assumptions c57_low_digits_refuted.
(** C57, refuted: a precision of %s does not cut the string, but stays for the next number *)
Theorem c57_string_precision_refuted w s rest v r cbuf : 1 <= w <= 9 -> nz s -> - 2 ^ 31 <= v < 2 ^ 31 -> Z.abs v < 10 ^ w -> zlen cbuf = 32 ->
  exists n, number_text w Cd v n /\ gives (37 :: 46 :: (48 + w) :: 115 :: 37 :: 100 :: 0 :: r) [VStr (Some (s ++ 0 :: rest)); VInt v] cbuf (s ++ n).
Proof.
  intros W N V B C. destruct (str_prec_text w s rest v r cbuf W N C) as (ds & D & L & P & E). destruct (item_num_ok Mnone Cd v V) as (_ & Ng & Mg). change (item_num Mnone Cd v) with (int_num Cd v) in *. change (item_flags Cd) with 2 in *. rewrite Ng, Mg in *. rewrite Z.mod_small in P by lia.
  destruct (strip 10 ds ltac:(lia) D) as (ds0 & R0 & E0). { intros ->. change (zlen (@nil Z)) with 0 in L. lia. }
  eexists. split; [|apply gives_run, E]. exists ds0. cbn [conv_base conv_lower]. rewrite <- P. split; [exact R0|]. rewrite L in E0. now rewrite <- E0.
Qed.
Print Assumptions c57_string_precision_refuted.
(** "a%d%q", "%.2s%d" with "xyz", 5; "%.2d" with 1234; "%p" *)
Example c57_ex2 : Forall supported [Lit 97; Num None Mnone Cd 7; Addr 48879] /\ no_dir [113; 0] /\
  ulz_snprintf (Some (zrepeat 9 5)) 5 [97; 37; 100; 37; 113; 0] [VInt 7] (zrepeat 0 32) = Ret (-1, Some [97; 55; 9; 9; 9]) /\
  ulz_snprintf (Some (zrepeat 9 6)) 6 [37; 46; 50; 115; 37; 100; 0] [VStr (Some [120; 121; 122; 0]); VInt 5] (zrepeat 0 32) = Ret (5, Some [120; 121; 122; 48; 53; 0]) /\
  ulz_snprintf (Some (zrepeat 9 4)) 4 [37; 46; 50; 100; 0] [VInt 1234] (zrepeat 0 32) = Ret (2, Some [51; 52; 0; 9]) /\
  ulz_snprintf (Some (zrepeat 9 6)) 6 [37; 112; 0] [VLong 48879] (zrepeat 0 32) = Ret (4, Some [66; 69; 69; 70; 0; 9]).
Proof.
  split; [repeat (constructor; [cbn; lia|]); constructor|]. split; [apply no_letter; cbn; lia|]. repeat split; vm_compute; reflexivity.
Qed.
