(** Example programs: C81-C84. *)
From Verif Require Import Base Bits Cstr S_num L_num P_num M_hex S_hex M_format S_format M_fmtuse M_crc32 S_crc32 D_crc32 P_crc32 T_crc32 M_ex S_ex P_ex P_ex2.

(** ** C81: examples/hex.c prints the hexadecimal digits of its input, however it comes in, and a newline *)
Theorem c81_hex reads buf obuf dest cbuf : Forall (fun x => bytes x /\ 0 < zlen x <= 1024) reads -> zlen buf = 1024 -> zlen obuf = 2049 -> zlen dest = 4096 -> zlen cbuf = 32 ->
  exists ws, hex_loop reads buf obuf dest cbuf = Ret ws /\ Forall (fun w => fst w = 1) ws /\ concat (map snd ws) = hex_of (concat reads) ++ [10].
Proof.
  intros F B O D C. rewrite hex_loop_ok by auto. eexists. split; [reflexivity|]. split.
  - apply Forall_app. split; [|repeat constructor]. clear. induction reads; constructor; auto.
  - rewrite map_app, concat_app. cbn [map concat snd]. rewrite app_nil_r. f_equal. clear. induction reads as [|x reads IH]; [reflexivity|]. cbn [map concat snd]. rewrite IH. unfold hex_of. now rewrite map_app, concat_app.
Qed.
Print Assumptions c81_hex.
Example c81_ex : hex_loop [[1; 255]; [16]] (zrepeat 0 1024) (zrepeat 7 2049) (zrepeat 9 4096) (zrepeat 0 32) = Ret [(1, [48; 49; 102; 102]); (1, [49; 48]); (1, [10])].
Proof. vm_compute. reflexivity. Qed.

(** ** C82: examples/diff.c *)
(** it ends, and counts no difference iff the common length has none *)
Theorem c82_zero_iff_equal f1 f2 : let mn := Z.min (zlen f1) (zlen f2) in
  exists ms, diff f1 f2 = Ret ((if zlen f1 =? zlen f2 then [] else [Sizes (zlen f1) (zlen f2)]) ++ ms ++ [Total (zlen ms) mn]) /\ (ms = [] <-> ztake mn f1 = ztake mn f2).
Proof.
  intros mn. pose proof (zlen_nonneg f1). pose proof (zlen_nonneg f2). destruct (loop_total f1 f2 mn ltac:(lia) ltac:(lia) (S (length f1)) 0 0) as (ms & E & _ & I); [lia|unfold zlen in *; lia|]. exists ms. split.
  - unfold diff. destruct (Z.eqb_spec (zlen f2) (zlen f1)) as [L|L].
    + replace (zlen f1 =? zlen f2) with true by lia. replace (zlen f1) with mn by lia. rewrite E. reflexivity.
    + replace (zlen f1 =? zlen f2) with false by lia. cbv zeta. replace (if zlen f2 <? zlen f1 then zlen f2 else zlen f1) with mn by (destruct (Z.ltb_spec (zlen f2) (zlen f1)); lia). rewrite E. reflexivity.
  - rewrite I. split; intros Q.
    + apply (znth_ext 0); [rewrite !zlen_ztake by lia; reflexivity|]. intros i Hi. rewrite zlen_ztake in Hi by lia. rewrite !znth_ztake by lia. apply Q. lia.
    + intros q Hq. rewrite <- (znth_ztake 0 mn f1), <- (znth_ztake 0 mn f2) by lia. now rewrite Q.
Qed.
(** it reports exactly the maximal runs of differing bytes if after each there is room for as many again *)
Theorem c82_runs_partial a b ta tb rs : diff_runs 0 a b rs -> ta = [] \/ tb = [] -> Forall (fun x => fst x + 2 * snd x <= zlen a) rs -> zlen a < 2 ^ 64 ->
  diff (a ++ ta) (b ++ tb) = Ret ((if zlen ta =? zlen tb then [] else [Sizes (zlen (a ++ ta)) (zlen (b ++ tb))]) ++ map (fun x => Diff (fst x) (snd x)) rs ++ [Total (zlen rs) (zlen a)]).
Proof.
  intros R T F L. pose proof (diff_runs_len _ _ _ _ R) as Lab. pose proof (zlen_nonneg ta). pose proof (zlen_nonneg tb). pose proof (diff_runs_ok 0 a b rs R [] [] ta tb (S (length (a ++ ta))) 0 eq_refl eq_refl) as X. cbv zeta in X. cbn [app] in X. change (0 + zlen a) with (zlen a) in X. change (0 + zlen rs) with (zlen rs) in X.
  specialize (X F L). assert (Y : zlen a < Z.of_nat (S (length (a ++ ta)))) by (rewrite app_length; unfold zlen; lia). specialize (X Y). unfold diff. rewrite !zlen_app, Lab. destruct (Z.eqb_spec (zlen tb) (zlen ta)) as [E|E].
  - replace (zlen b + zlen tb =? zlen b + zlen ta) with true by lia. replace (zlen ta =? zlen tb) with true by lia. assert (ta = [] /\ tb = []) as [-> ->]. { destruct T as [-> | ->]; split; auto; apply zlen_0; change (zlen []) with 0 in E; lia. } change (zlen []) with 0. rewrite Z.add_0_r. rewrite <- Lab. exact X.
  - replace (zlen b + zlen tb =? zlen b + zlen ta) with false by lia. replace (zlen ta =? zlen tb) with false by lia. cbv zeta.
    replace (if zlen b + zlen tb <? zlen b + zlen ta then zlen b + zlen tb else zlen b + zlen ta) with (zlen a).
    + rewrite X. cbn [bind]. now rewrite Lab.
    + destruct (Z.ltb_spec (zlen b + zlen tb) (zlen b + zlen ta)); destruct T as [-> | ->]; change (zlen []) with 0 in *; lia.
Qed.
(** a difference in the last byte is reported one place too early, before the file if that is its only byte *)
Theorem c82_last_byte_refuted a x y : x <> y -> zlen a < 2 ^ 63 -> diff (a ++ [x]) (a ++ [y]) = Ret [Diff (u64 (zlen a - 1)) 1; Total 1 (zlen a + 1)] /\ diff_runs 0 (a ++ [x]) (a ++ [y]) [(zlen a, 1)].
Proof.
  intros N L. split.
  - unfold diff. rewrite !zlen_app. change (zlen [x]) with 1. change (zlen [y]) with 1. rewrite Z.eqb_refl.
    assert (X : forall k a1 p, a = p ++ a1 -> (S (length a1) < k)%nat -> diff_loop k (a ++ [x]) (a ++ [y]) (zlen a + 1) (zlen p) 0 = Ret [Diff (u64 (zlen a - 1)) 1; Total 1 (zlen a + 1)]).
    { induction k as [|k IH]; intros a1 p E F; [lia|]. assert (La : zlen a = zlen p + zlen a1) by (rewrite E; apply zlen_app). pose proof (zlen_nonneg p). pose proof (zlen_nonneg a1). destruct a1 as [|c a1].
      - rewrite app_nil_r in E. subst p. cbn [diff_loop]. replace (zlen a <? zlen a + 1) with true by lia. rewrite !zread_app_exact. cbn [bind]. replace (x =? y) with false by lia. cbn [diff_inner]. replace (zlen a + (0 + 1) <? zlen a + 1) with false by lia. cbn [bind].
        destruct k; [cbn [length] in F; lia|]. cbn [diff_loop]. replace (zlen a + 1 <? zlen a + 1) with false by lia. reflexivity.
      - rewrite loop_eq; [|rewrite zlen_app; change (zlen [x]) with 1; lia|rewrite zlen_app; change (zlen [y]) with 1; lia|rewrite zlen_cons in *; lia|rewrite E, <- !app_assoc; cbn [app]; now rewrite !znth_app_exact].
        replace (zlen p + 1) with (zlen (p ++ [c])) by (rewrite zlen_app; reflexivity). apply (IH a1); [rewrite E, <- app_assoc; reflexivity|cbn [length] in F; lia]. }
    apply (X _ a []); [reflexivity|]. rewrite app_length. cbn [length]. lia.
  - clear L. assert (X : forall o, diff_runs o (a ++ [x]) (a ++ [y]) [(o + zlen a, 1)]).
    { induction a as [|c a IH]; intros o; cbn [app].
      - change (zlen []) with 0. rewrite Z.add_0_r. apply (runs_ne o [x] [y] [] [] []); [discriminate|repeat constructor; exact N|auto|constructor].
      - apply runs_eq. rewrite zlen_cons, Z.add_assoc. apply IH. }
    exact (X 0).
Qed.
Ltac fin P E a b B Ra Rb :=
  cbn [map app concat item_fmt item_args lmod_fmt conv_fmt] in P, E;
  repeat match goal with H : Forall2 prints (_ :: _) _ |- _ => inversion H; clear H; subst | H : Forall2 prints [] _ |- _ => inversion H; clear H; subst end;
  repeat match goal with H : prints (Lit _) _ |- _ => cbn in H; subst end;
  match goal with H1 : prints (Num _ _ _ a) ?x, H2 : prints (Num _ _ _ b) ?y |- _ => exists x, y; destruct (B _ _ Ra H1) as [? ?]; destruct (B _ _ Rb H2) as [? ?] end;
  cbn [concat app] in E; rewrite ?app_nil_r in E; (split; [|split; assumption]); cbn [say app]; apply E;
  [repeat (rewrite zlen_app || rewrite zlen_cons); change (zlen []) with 0; lia
  |let Q := fresh in intros Q; apply (f_equal zlen) in Q; repeat (rewrite zlen_app in Q || rewrite zlen_cons in Q); change (zlen []) with 0 in Q; revert Q; zpos; lia].
(** the texts: numbers are printed in decimal *)
Theorem c82_text m dest cbuf : zlen dest = 4096 -> zlen cbuf = 32 -> (let (a, b) := match m with Sizes a b => (a, b) | Diff a b => (a, b) | Total a b => (a, b) end in 0 <= a < 2 ^ 64 /\ 0 <= b < 2 ^ 64) ->
  exists x y, say m dest cbuf = Ret (Some (1, match m with
    | Sizes _ _ => [115; 105; 122; 101; 115; 32; 100; 105; 102; 102; 101; 114; 33; 32] ++ x ++ [44; 32] ++ y ++ [10]
    | Diff _ _ => [100; 105; 102; 102; 101; 114; 101; 110; 99; 101; 32; 97; 116; 32; 111; 102; 102; 115; 101; 116; 32] ++ x ++ [32; 111; 102; 32; 115; 105; 122; 101; 32] ++ y ++ [10]
    | Total _ _ => x ++ [32; 100; 105; 102; 102; 101; 114; 101; 110; 99; 101; 115; 32; 105; 110; 32] ++ y ++ [32; 98; 121; 116; 101; 115; 32; 100; 101; 116; 101; 99; 116; 101; 100; 46; 10]
    end)) /\ match m with Sizes a b | Diff a b | Total a b => is_decimal a x /\ is_decimal b y end.
Proof.
  intros D C R. assert (B : forall v s, 0 <= v < 2 ^ 64 -> number_text 1 Cu v s -> is_decimal v s /\ zlen s <= 20).
  { intros v s V (ds & P & ->). assert (Ld : 1 <= zlen ds <= 20). { apply (digits_le 10); try lia. exists v. split; [|lia]. cbn [conv_base] in P. now rewrite Z.abs_eq in P by lia. } unfold sign_str. replace (v <? 0) with false by lia. replace (Z.max 0 (1 - zlen ds)) with 0 by lia. cbn [app zrepeat repeat Z.to_nat]. split.
    - exists ds. split; [exact P|]. unfold sign_str. replace (v <? 0) with false by lia. reflexivity.
    - rewrite zlen_map. lia. }
  destruct m as [a b|a b|a b]; destruct R as [Ra Rb].
  - destruct (printf_items (map Lit [115; 105; 122; 101; 115; 32; 100; 105; 102; 102; 101; 114; 33; 32] ++ [Num None Mz Cu a] ++ map Lit [44; 32] ++ [Num None Mz Cu b; Lit 10]) cbuf dest) as (ss & P & E); auto. { repeat constructor; try lia; cbn; lia. } fin P E a b B Ra Rb.
  - destruct (printf_items (map Lit [100; 105; 102; 102; 101; 114; 101; 110; 99; 101; 32; 97; 116; 32; 111; 102; 102; 115; 101; 116; 32] ++ [Num None Mz Cu a] ++ map Lit [32; 111; 102; 32; 115; 105; 122; 101; 32] ++ [Num None Mz Cu b; Lit 10]) cbuf dest) as (ss & P & E); auto. { repeat constructor; try lia; cbn; lia. } fin P E a b B Ra Rb.
  - destruct (printf_items ([Num None Mz Cu a] ++ map Lit [32; 100; 105; 102; 102; 101; 114; 101; 110; 99; 101; 115; 32; 105; 110; 32] ++ [Num None Mz Cu b] ++ map Lit [32; 98; 121; 116; 101; 115; 32; 100; 101; 116; 101; 99; 116; 101; 100; 46; 10]) cbuf dest) as (ss & P & E); auto. { repeat constructor; try lia; cbn; lia. } fin P E a b B Ra Rb.
Qed.
Print Assumptions c82_zero_iff_equal.
Print Assumptions c82_runs_partial.
Print Assumptions c82_last_byte_refuted.
Print Assumptions c82_text.
Example c82_ex : diff_runs 0 [1; 2; 3; 4; 5; 6] [1; 9; 9; 4; 5; 6] [(1, 2)] /\ diff [1; 2; 3; 4; 5; 6; 7] [1; 9; 9; 4; 5; 6] = Ret [Sizes 7 6; Diff 1 2; Total 1 6].
Proof.
  split; [|vm_compute; reflexivity]. apply runs_eq. apply (runs_ne _ [2; 3] [9; 9] [4; 5; 6] [4; 5; 6] []); [discriminate|repeat constructor; lia|right; do 3 eexists; split; reflexivity|]. repeat apply runs_eq. constructor.
Qed.

(** ** C83: the third checksum of examples/crc32_printer.c is the CRC-32 without the final complement (JAMCRC) *)
Theorem c83_jamcrc calls : Forall (fun c => bytes (chunk c)) calls ->
  exists c, r4_updates r4_init calls = Ret c /\ zlen (r4_final c) = 4 /\ bytes (r4_final c) /\ wire_bits (r4_final c) = map negb (crc 0x04C11DB7 (concat (map chunk calls))).
Proof.
  intros F. destruct gen32 as [G R]. assert (B : bytes (concat (map chunk calls))). { clear -F. induction F; cbn [map concat]; [constructor|]. now apply bytes_app. }
  assert (X : forall calls s, Forall (fun c => bytes (chunk c)) calls -> 0 <= s < 2 ^ 32 -> r4_updates s calls = Ret (fold_left (upd 0xedb88320) (concat (map chunk calls)) s)).
  { clear -R. induction calls as [|[[p l] q] calls IH]; intros s F S; [reflexivity|]. inversion F as [|? ? B F']; subst. cbn [chunk fst snd] in B. cbn [r4_updates map concat]. rewrite r4_update_ok by auto. cbn [bind]. rewrite fold_left_app. apply IH; [exact F'|]. cbn [chunk fst snd].
    destruct gen32 as [G _]. exact (proj2 (wire_ok POLY32 RP32 G R l s B S)). }
  exists (fold_left (upd 0xedb88320) (concat (map chunk calls)) r4_init). split; [apply X; [exact F|unfold r4_init; lia]|].
  destruct (wire_ok POLY32 RP32 G R (concat (map chunk calls)) r4_init B ltac:(unfold r4_init; lia)) as [W S]. destruct (r4_final_ok _ S) as (A1 & A2 & A3). split; [exact A3|]. split; [exact A2|]. change 0xedb88320 with RP32. rewrite A1, <- W. unfold crc. rewrite map_map. rewrite (map_ext _ (fun b => b)) by (intros []; reflexivity). rewrite map_id. reflexivity.
Qed.
(** so its four bytes are the complements of those CRC32_Final gives, however both were fed *)
Theorem c83_complement calls calls' u v : Forall (fun c => bytes (chunk c)) calls -> Forall (fun c => bytes (chunk c)) calls' -> concat (map chunk calls) = concat (map chunk calls') -> zlen u = 4 ->
  exists c s, crc_run POLY32 (u ++ v) calls = Ret (c ++ v) /\ r4_updates r4_init calls' = Ret s /\ r4_final s = map (fun b => 255 - b) c.
Proof.
  intros F F' E L. destruct (c44_crc32 calls u v F L) as (c & E1 & Lc & Bc & W). destruct (c83_jamcrc calls' F') as (s & E2 & Ls & Bs & W2). exists c, s. split; [exact E1|]. split; [exact E2|]. rewrite <- E, <- W in W2.
  assert (X : forall a b, bytes a -> bytes b -> length a = length b -> wire_bits b = map negb (wire_bits a) -> b = map (fun x => 255 - x) a).
  { clear. induction a as [|x a IH]; intros [|y b] A B L W; cbn [length] in L; try lia; [reflexivity|]. apply bytes_cons in A as [Ax A]. apply bytes_cons in B as [By B]. unfold wire_bits in W. cbn [map concat] in W. rewrite map_app in W.
    assert (W1 : byte_bits y = map negb (byte_bits x) /\ concat (map byte_bits b) = map negb (concat (map byte_bits a))).
    { unfold byte_bits in *. cbn [seq map app] in *. injection W. intros. split; [congruence|assumption]. }
    destruct W1 as [W1 W2]. cbn [map]. f_equal; [|apply IH; auto; lia]. apply Z.bits_inj'. intros n Hn. unfold byte in Ax, By. replace (255 - x) with (Z.lnot x mod 2 ^ 8).
    2: { unfold Z.lnot. change (2 ^ 8) with 256. replace (Z.pred (- x)) with (255 - x + (-1) * 256) by lia. rewrite Z.mod_add by lia. apply Z.mod_small. lia. }
    destruct (Z_lt_le_dec n 8) as [N|N].
    - rewrite Z.mod_pow2_bits_low by lia. rewrite Z.lnot_spec by lia. unfold byte_bits in W1. rewrite map_map in W1. assert (Q := f_equal (fun l => nth (Z.to_nat n) l false) W1). cbv beta in Q. rewrite (nth_indep _ false (Z.testbit y (Z.of_nat 0))) in Q by (rewrite map_length, seq_length; lia).
      rewrite (nth_indep (map (fun k => negb _) _) false (negb (Z.testbit x (Z.of_nat 0)))) in Q by (rewrite map_length, seq_length; lia). rewrite (map_nth (fun k => Z.testbit y (Z.of_nat k))), (map_nth (fun k => negb (Z.testbit x (Z.of_nat k)))) in Q. rewrite seq_nth in Q by lia. cbn [plus] in Q. now rewrite Z2Nat.id in Q by lia.
    - rewrite Z.mod_pow2_bits_high by lia. destruct (Z.eq_dec y 0) as [->|]; [apply Z.bits_0|]. apply Z.bits_above_log2; [lia|]. assert (Z.log2 y < 8) by (apply Z.log2_lt_pow2; lia). lia. }
  apply X; auto. unfold zlen in *. lia.
Qed.
Print Assumptions c83_jamcrc.
Print Assumptions c83_complement.
(* the self test, line 70: 0x340bc6d9 *)
Example c83_ex : (let* c := r4_updates r4_init [([], [49;50;51;52;53], [7]); ([9;9], [54;55;56;57], [])] in Ret (r4_final c)) = Ret [0xd9; 0xc6; 0x0b; 0x34].
Proof. vm_compute. reflexivity. Qed.

(** ** C84: examples/find_identical_files.c *)
(** files of the same size are found identical iff they are *)
Theorem c84_same_size f1 f2 : zlen f1 = zlen f2 -> exists r, compare_files f1 f2 = Ret r /\ (r = 0 \/ r = 1) /\ (r = 0 <-> f1 = f2).
Proof. intros L. rewrite compare_files_ok by exact L. eexists. split; [reflexivity|]. destruct (list_eq_dec Z.eq_dec f1 f2); split; auto; split; intros; auto; try lia; congruence. Qed.
(** in general so is every longer file beginning with a file of whole blocks *)
Theorem c84_compare f1 f2 : exists r, compare_files f1 f2 = Ret r /\ (r = 0 \/ r = 1) /\ (r = 0 <-> f1 = f2 \/ (zlen f1 mod 16384 = 0 /\ exists t, f2 = f1 ++ t)).
Proof. apply compare_ok. lia. Qed.
(** one level without common subdirectories: exactly the names in both whose files are identical (mode 0), or
    are not (mode 1), are printed; both directories given with or both without a slash at the end *)
Theorem c84_flat_partial ls size content mode fuel d1 d2 fl1 fl2 : ls d1 = (0, fl1) -> ls d2 = (0, fl2) -> d1 <> [] -> d2 <> [] -> (znth 0 d1 (zlen d1 - 1) = 47 <-> znth 0 d2 (zlen d2 - 1) = 47) ->
  mode = 0 \/ mode = 1 -> (forall p, size p = zlen (content p)) -> (forall f, In f fl1 -> In f fl2 -> f <> [] -> znth 0 f (zlen f - 1) <> 47) ->
  exists ps r, process_path ls size content mode (S fuel) d1 d2 = Ret (ps, r) /\
    forall p, In p ps <-> exists f, p = in_dir d1 f /\ In f fl1 /\ In f fl2 /\ (mode = 0 <-> content (in_dir d1 f) = content (in_dir d2 f)).
Proof.
  intros. rewrite (process_flat _ _ _ _ _ _ _ fl1 fl2) by auto. do 2 eexists. split; [reflexivity|]. intros p. rewrite in_map_iff.
  assert (X : forall f, existsb (fun g => if list_eq_dec Z.eq_dec g f then true else false) fl2 = true <-> In f fl2). { intros f. rewrite existsb_exists. split; [intros (g & G & E); destruct (list_eq_dec Z.eq_dec g f); congruence|]. intros I. exists f. split; [exact I|]. destruct (list_eq_dec Z.eq_dec f f); congruence. }
  split.
  - intros (f & <- & I). apply filter_In in I as [I E]. apply andb_prop in E as [E1 E2]. apply X in E1. exists f. split; [reflexivity|]. split; [exact I|]. split; [exact E1|]. apply eqb_prop in E2. destruct (list_eq_dec Z.eq_dec (content (in_dir d1 f)) (content (in_dir d2 f))) as [e|n]; destruct (Z.eqb_spec mode 0) as [m|m]; try discriminate E2; tauto.
  - intros (f & -> & I1 & I2 & Q). exists f. split; [reflexivity|]. apply filter_In. split; [exact I1|]. apply X in I2. rewrite I2. cbn [andb]. destruct (list_eq_dec Z.eq_dec (content (in_dir d1 f)) (content (in_dir d2 f))) as [e|n]; destruct (Z.eqb_spec mode 0) as [m|m]; try reflexivity; tauto.
Qed.
(** the program never returns 0: process_path has no return statement at its end *)
Theorem c84_never_succeeds_refuted ls size content mode fuel d1 d2 ps r : tree_main ls size content mode fuel d1 d2 = Ret (ps, r) -> r <> 0.
Proof.
  unfold tree_main. destruct (process_path ls size content mode fuel d1 d2) as [[qs [r'|]]| |] eqn:E; try discriminate. cbn [bind]. intros H. injection H as -> ->. exact (process_ret _ _ _ _ _ _ _ _ _ E).
Qed.
(** "a/" and "b": the second name lacks its slash *)
Theorem c84_slash_refuted f : full_names [97; 47] [98] f = (in_dir [97; 47] f, [98] ++ f) /\ in_dir [98] f = [98; 47] ++ f.
Proof. split; reflexivity. Qed.
Print Assumptions c84_same_size.
Print Assumptions c84_compare.
Print Assumptions c84_flat_partial.
Print Assumptions c84_never_succeeds_refuted.
Print Assumptions c84_slash_refuted.
Example c84_ex : let c p := if znth 0 p 0 =? 97 then [1; 2] else if znth 0 p 2 =? 120 then [1; 2] else [1; 3] in
  process_path (fun d => (0, [[120]; [121]])) (fun p => zlen (c p)) c 0 1 [97] [98] = Ret ([[97; 47; 120]], None) /\
  compare_files (zrepeat 5 16384) (zrepeat 5 20000) = Ret 0.
Proof. split; vm_compute; reflexivity. Qed.
