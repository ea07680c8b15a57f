(** C69 (timestamp), C73 (stringptr_format), C74: users of ulz_vsnprintf. *)
From Verif Require Import Base Cstr S_num L_num M_num M_stringptr D_stringptr P_stringptr M_format S_format P_format P_format2 P_format3 M_fmtuse T_format.
Ltac Zify.zify_post_hook ::= Z.div_mod_to_equations.

(** ** timestamp *)
Definition dig2 (n : Z) : list Z := [48 + n / 10; 48 + n mod 10].
Definition dig4 (n : Z) : list Z := dig2 (n / 100) ++ dig2 (n mod 100).
Definition date_text (y mo d h mi s : Z) : list Z := dig4 y ++ [45] ++ dig2 mo ++ [45] ++ dig2 d ++ [32] ++ dig2 h ++ [58] ++ dig2 mi ++ [58] ++ dig2 s.
Lemma dc10 d : 0 <= d < 10 -> digit_char false d = 48 + d.
Proof. intros H. unfold digit_char. now replace (d <? 10) with true by lia. Qed.
Lemma num_text ds v : digits_ok 10 ds -> ds <> [] -> pos_value 10 ds = v -> number_text (zlen ds) Cd v (map (digit_char false) ds).
Proof.
  intros D N <-. destruct (strip 10 ds ltac:(lia) D N) as (ds0 & R & E). exists ds0. pose proof (pos_value_range 10 ds ltac:(lia) D). split; [rewrite Z.abs_eq by lia; exact R|]. rewrite E at 1 2. replace (pos_value 10 _ <? 0) with false; [reflexivity|]. rewrite <- E. lia.
Qed.
Lemma prints2 n : 0 <= n < 100 -> prints (Num (Some 2) Mnone Cd n) (dig2 n).
Proof.
  intros H. cbn [prints]. assert (D : digits_ok 10 [n / 10; n mod 10]) by (repeat constructor; lia). pose proof (num_text [n / 10; n mod 10] n D ltac:(discriminate)) as Q. cbn [map] in Q. rewrite !dc10 in Q by lia. apply Q. cbn [pos_value]. change (10 ^ zlen [n mod 10]) with 10. change (10 ^ zlen (@nil Z)) with 1. lia.
Qed.
Lemma prints4 n : 0 <= n < 10000 -> prints (Num (Some 4) Mnone Cd n) (dig4 n).
Proof.
  intros H. cbn [prints]. set (ds := [n / 100 / 10; (n / 100) mod 10; n mod 100 / 10; (n mod 100) mod 10]). assert (D : digits_ok 10 ds) by (repeat constructor; lia). pose proof (num_text ds n D ltac:(discriminate)) as Q. unfold ds in Q. cbn [map] in Q. rewrite !dc10 in Q by lia. apply Q. cbn [pos_value].
  change (10 ^ zlen [(n / 100) mod 10; n mod 100 / 10; (n mod 100) mod 10]) with 1000. change (10 ^ zlen [n mod 100 / 10; (n mod 100) mod 10]) with 100. change (10 ^ zlen [(n mod 100) mod 10]) with 10. change (10 ^ zlen (@nil Z)) with 1. lia.
Qed.
(** C69: the date and time in 19 characters, cut to the buffer *)
Theorem c69_timestamp tim buffer bufsize cbuf : 1 <= bufsize <= zlen buffer -> zlen cbuf = 32 ->
  -1900 <= tm_year tim < 8100 -> 0 <= tm_mon tim <= 11 -> 1 <= tm_mday tim <= 31 -> 0 <= tm_hour tim <= 23 -> 0 <= tm_min tim <= 59 -> 0 <= tm_sec tim <= 60 ->
  let t := date_text (1900 + tm_year tim) (tm_mon tim + 1) (tm_mday tim) (tm_hour tim) (tm_min tim) (tm_sec tim) in
  zlen t = 19 /\ timestamp buffer bufsize tim cbuf = Ret (Z.min (bufsize - 1) 19, written bufsize t buffer).
Proof.
  intros B C Hy Hmo Hd Hh Hmi Hs t. split; [reflexivity|]. unfold timestamp, int_r, int_ok. replace ((_ <=? 1900 + tm_year tim) && _) with true by lia. cbn [bind]. replace ((_ <=? tm_mon tim + 1) && _) with true by lia. cbn [bind].
  set (y := 1900 + tm_year tim) in *. set (mo := tm_mon tim + 1) in *. destruct tim as [a b d h mi s]. cbn [tm_year tm_mon tm_mday tm_hour tm_min tm_sec] in *.
  assert (Ry : 0 <= y < 10000) by (unfold y; lia). assert (Rm : 0 <= mo < 100) by (unfold mo; lia). clearbody y mo.
  set (n2 := fun v => Num (Some 2) Mnone Cd v). set (items := [Num (Some 4) Mnone Cd y; Lit 45; n2 mo; Lit 45; n2 d; Lit 32; n2 h; Lit 58; n2 mi; Lit 58; n2 s]).
  assert (S2 : forall v, 0 <= v < 100 -> supported (n2 v)) by (intros v V; cbn; lia).
  assert (S : Forall supported items). { unfold items. repeat (apply Forall_cons; [first [apply S2; lia | cbn; try split; lia]|]). constructor. }
  destruct (c57_snprintf items [] cbuf S C) as (ss & P & U & E). specialize (E buffer bufsize B).
  assert (Es : ss = [dig4 y; [45]; dig2 mo; [45]; dig2 d; [32]; dig2 h; [58]; dig2 mi; [58]; dig2 s]).
  { symmetry. apply U. unfold items. repeat (apply Forall2_cons; [first [apply prints2; lia | apply prints4; lia | reflexivity]|]). constructor. }
  assert (Et : concat ss = t) by (rewrite Es; reflexivity). rewrite Et in E. change (zlen t) with 19 in E.
  change (concat (map item_fmt items) ++ [0]) with tstamp_fmt in E. change (concat (map item_args items)) with [VInt y; VInt mo; VInt d; VInt h; VInt mi; VInt s] in E. rewrite E. cbn [bind]. rewrite u64_id by lia. reflexivity.
Qed.
Print Assumptions c69_timestamp.
Example c69_timestamp_ex : let tim := mkTm 126 10 16 7 5 9 in
  timestamp (zrepeat 9 24) 24 tim (zrepeat 0 32) = Ret (19, [50; 48; 50; 54; 45; 49; 49; 45; 49; 54; 32; 48; 55; 58; 48; 53; 58; 48; 57; 0; 9; 9; 9; 9]) /\
  timestamp (zrepeat 9 24) 8 tim (zrepeat 0 32) = Ret (7, [50; 48; 50; 54; 45; 49; 49; 0] ++ zrepeat 9 16).
Proof. split; vm_compute; reflexivity. Qed.

(** ** stringptr_format *)
Lemma format_run junk fmt args cbuf : exists hd tl, zlen hd = 16 /\ zlen tl = 1001 /\ stringptr_format (Some junk) (Some fmt) args cbuf =
  match text_run fmt args cbuf with
  | Ret (b, t) => Ret (Some (mkSp (hd ++ (if b then written0 1000 t tl else written 1000 t tl)) 16 (if b then 2 ^ 64 - 1 else Z.min 999 (zlen t))))
  | UB => UB
  | Fuel => Fuel
  end.
Proof.
  unfold stringptr_format, stringptr_new. set (b0 := block junk (u64 (16 + 1000 + 1))). assert (L0 : zlen b0 = 1017) by (apply zlen_block; lia). clearbody b0. change (16 + 1000) with 1016. 
  rewrite (zwrite_ok b0 1016 0) by lia. cbn [bind]. set (b := ztake 1016 b0 ++ 0 :: zdrop (1016 + 1) b0). assert (L : zlen b = 1017) by (unfold b; rewrite zlen_app, zlen_cons, zlen_ztake, zlen_zdrop by lia; lia). clearbody b. clear b0 L0. cbn [so sb].
  exists (ztake 16 b), (zdrop 16 b). split; [rewrite zlen_ztake; lia|]. split; [rewrite zlen_zdrop; lia|].
  assert (H : 1 <= 1000 <= zlen (zdrop 16 b)) by (rewrite zlen_zdrop; lia). rewrite (run_ok (Some (zdrop 16 b)) 1000 fmt args cbuf H). destruct (text_run fmt args cbuf) as [[f t]| |]; [|reflexivity|reflexivity]. cbv zeta. destruct f; cbn [bind].
  - unfold written0. rewrite <- (Z.mod_small (2 ^ 64 - 1) (2 ^ 64)) at 1 by lia. reflexivity.
  - unfold written. assert (E : zlen (ztake (1000 - 1) t) = Z.min 999 (zlen t)). { change (1000 - 1) with 999. destruct (Z_le_dec 999 (zlen t)); [rewrite zlen_ztake by lia; lia|rewrite ztake_all by lia; lia]. }
    rewrite E. rewrite u64_id by (pose proof (zlen_nonneg t); lia). reflexivity.
Qed.
(** C73: if the format is accepted (the dry run gives n, the length of the text), a string with its
    length as size, NUL-terminated; it holds the first 999 bytes of the text *)
Theorem c73_format fmt args cbuf junk n : 0 <= n -> ulz_vsnprintf None 0 fmt args cbuf = Ret (n, None) ->
  exists s t, stringptr_format (Some junk) (Some fmt) args cbuf = Ret (Some s) /\ holds s (ztake 999 t) /\ zlen t = n /\ sz s = Z.min 999 n /\ znth 1 (sb s) (so s + sz s) = 0 /\
    forall d size, n < size <= zlen d -> ulz_vsnprintf (Some d) size fmt args cbuf = Ret (n, Some (t ++ 0 :: zdrop (n + 1) d)).
Proof.
  intros N R. destruct (format_run junk fmt args cbuf) as (hd & tl & Lh & Lt & E). rewrite (run_ok None 0 fmt args cbuf I) in R. destruct (text_run fmt args cbuf) as [[b t]| |] eqn:T; [|discriminate|discriminate]. destruct b; [injection R; lia|]. assert (n = zlen t) by (injection R; lia). subst n. clear R.
  rewrite E. eexists. exists t. split; [reflexivity|]. cbn [sz so sb].
  assert (El : zlen (ztake 999 t) = Z.min 999 (zlen t)). { destruct (Z_le_dec 999 (zlen t)); [rewrite zlen_ztake by lia; lia|rewrite ztake_all by lia; lia]. }
  split; [|split; [reflexivity|split; [reflexivity|split]]].
  - exists hd, (0 :: zdrop (zlen (ztake 999 t) + 1) tl). unfold holds_in. cbn [sb so sz]. split; [reflexivity|]. split; [lia|]. split; [lia|]. rewrite zlen_app. destruct (c55_bounds t tl 1000 ltac:(lia)) as (-> & _). lia.
  - unfold written. cbv zeta. change (1000 - 1) with 999. rewrite app_assoc. replace (16 + Z.min 999 (zlen t)) with (zlen (hd ++ ztake 999 t)) by (rewrite zlen_app; lia). apply znth_app_exact.
  - intros d size H. assert (H' : 1 <= size <= zlen d) by lia. rewrite (run_ok (Some d) size fmt args cbuf H'), T. cbv zeta. rewrite ztake_all by lia. reflexivity.
Qed.
Print Assumptions c73_format.
(** C73: a rejected format gives a string of size SIZE_MAX *)
Theorem c73_format_refuted fmt args cbuf junk : ulz_vsnprintf None 0 fmt args cbuf = Ret (-1, None) -> exists b, stringptr_format (Some junk) (Some fmt) args cbuf = Ret (Some (mkSp b 16 (2 ^ 64 - 1))) /\ zlen b = 1017.
Proof.
  intros R. destruct (format_run junk fmt args cbuf) as (hd & tl & Lh & Lt & E). rewrite (run_ok None 0 fmt args cbuf I) in R. destruct (text_run fmt args cbuf) as [[b t]| |] eqn:T; [|discriminate|discriminate]. destruct b; [|assert (zlen t = -1) by congruence; pose proof (zlen_nonneg t); lia].
  rewrite E. eexists. split; [reflexivity|]. rewrite zlen_app. destruct (c55_bounds t tl 1000 ltac:(lia)) as (_ & _ & -> & _). lia.
Qed.
Print Assumptions c73_format_refuted.
Example c73_format_ex : exists b, stringptr_format (Some (fun _ => 7)) (Some [37; 100; 0]) [VInt (-5)] (zrepeat 0 32) = Ret (Some (mkSp b 16 2)) /\ ztake 4 (zdrop 16 b) = [45; 53; 0; 7].
Proof. eexists (zrepeat 7 16 ++ [45; 53; 0] ++ zrepeat 7 997 ++ [0]). split; vm_compute; reflexivity. Qed.

(** ** ulz_printf, ulz_fprintf *)
(** C74: an accepted format (the dry run gives n): one write of the first 4095 bytes of the text, none
    if it is empty *)
Theorem c74_fprintf fd fmt args dest cbuf n : zlen dest = 4096 -> 0 <= n -> ulz_vsnprintf None 0 fmt args cbuf = Ret (n, None) ->
  exists t, zlen t = n /\ ulz_fprintf fd fmt args dest cbuf = Ret (if n =? 0 then None else Some (fd, ztake 4095 t)) /\
    forall d size, n < size <= zlen d -> ulz_vsnprintf (Some d) size fmt args cbuf = Ret (n, Some (t ++ 0 :: zdrop (n + 1) d)).
Proof.
  intros D N R. rewrite (run_ok None 0 fmt args cbuf I) in R. destruct (text_run fmt args cbuf) as [[b t]| |] eqn:T; [|discriminate|discriminate]. destruct b; [injection R; lia|]. assert (n = zlen t) by (injection R; lia). subst n. clear R. exists t. split; [reflexivity|]. split.
  - unfold ulz_fprintf. assert (H' : 1 <= 4096 <= zlen dest) by lia. rewrite (run_ok (Some dest) 4096 fmt args cbuf H'), T. cbv zeta. cbn [bind]. change (4096 - 1) with 4095. set (t' := ztake 4095 t). assert (El : zlen t' = Z.min 4095 (zlen t)). { unfold t'. destruct (Z_le_dec 4095 (zlen t)); [rewrite zlen_ztake by lia; lia|rewrite ztake_all by lia; lia]. }
    replace (zlen t' =? 0) with (zlen t =? 0) by lia. destruct (Z.eqb_spec (zlen t) 0); [reflexivity|]. rewrite u64_id by lia. change (t' ++ 0 :: zdrop (zlen t' + 1) dest) with ([] ++ t' ++ 0 :: zdrop (zlen t' + 1) dest). rewrite zreads_at by reflexivity. reflexivity.
  - intros d size H. assert (H' : 1 <= size <= zlen d) by lia. rewrite (run_ok (Some d) size fmt args cbuf H'), T. cbv zeta. rewrite ztake_all by lia. reflexivity.
Qed.
Print Assumptions c74_fprintf.
Theorem c74_printf fmt args dest cbuf n : zlen dest = 4096 -> 0 <= n -> ulz_vsnprintf None 0 fmt args cbuf = Ret (n, None) ->
  exists t, zlen t = n /\ ulz_printf fmt args dest cbuf = Ret (if n =? 0 then None else Some (1, ztake 4095 t)) /\
    forall d size, n < size <= zlen d -> ulz_vsnprintf (Some d) size fmt args cbuf = Ret (n, Some (t ++ 0 :: zdrop (n + 1) d)).
Proof. exact (c74_fprintf 1 fmt args dest cbuf n). Qed.
Print Assumptions c74_printf.
(** C74: for a rejected format write(2) is asked for SIZE_MAX bytes of the buffer *)
Theorem c74_rejected_refuted fd fmt args dest cbuf : zlen dest = 4096 -> ulz_vsnprintf None 0 fmt args cbuf = Ret (-1, None) -> ulz_fprintf fd fmt args dest cbuf = UB.
Proof.
  intros D R. rewrite (run_ok None 0 fmt args cbuf I) in R. destruct (text_run fmt args cbuf) as [[b t]| |] eqn:T; [|discriminate|discriminate]. destruct b; [|assert (zlen t = -1) by congruence; pose proof (zlen_nonneg t); lia].
  unfold ulz_fprintf. assert (H' : 1 <= 4096 <= zlen dest) by lia. rewrite (run_ok (Some dest) 4096 fmt args cbuf H'), T. cbv zeta. cbn [bind Z.eqb]. destruct (c55_bounds t dest 4096 ltac:(lia)) as (_ & _ & L & _). change (u64 (-1)) with (2 ^ 64 - 1). fold (written0 4096 t dest). unfold zreads. 
  destruct (_ && _) eqn:Q; [exfalso|reflexivity]. rewrite L in Q. lia.
Qed.
Print Assumptions c74_rejected_refuted.
Example c74_ex : ulz_fprintf 2 [37; 115; 33; 10; 0] [VStr (Some [104; 105; 0])] (zrepeat 9 4096) (zrepeat 0 32) = Ret (Some (2, [104; 105; 33; 10])) /\ ulz_vsnprintf None 0 [37; 108; 120; 0] [VLong 5] (zrepeat 0 32) = Ret (-1, None).
Proof. split; vm_compute; reflexivity. Qed.
