(** Theorems added after wrong variants of the model had passed. *)
From Verif Require Import Base Cstr M_stringptr M_spl M_fileparser M_spfile S_stringptr S_fileparser D_stringptr D_fileparser P_stringptr P_fileparser P_spfile M_mktemp T_mktemp M_selftest P_selftest T_selftest.

(** C118: the names that the test of mktempdir.c makes begin with /dev/shm/mktempdir_test *)
Theorem c118_mktempdir_name : forall rand k evs,
  exists ys y, length ys = k /\ Forall six ys /\ six y /\
    let path x := [47; 100; 101; 118; 47; 115; 104; 109; 47; 109; 107; 116; 101; 109; 112; 100; 105; 114; 95; 116; 101; 115; 116] ++ x in
    mktempdir_main rand (attempt k MkOk ++ evs) = Ret (0, (path y, 29), map path (ys ++ [y])).
Proof. exact c118_mktempdir. Qed.
Print Assumptions c118_mktempdir_name.

(** C54: when every write takes all it is given, a string needs one call for each begun 64 KiB *)
Theorem c54_tofile_calls : forall s t K n, holds s t -> 65536 <= K ->
  stringptr_tofile true (repeat (Xfer K) n) s = if 65536 * Z.of_nat n <? zlen t then Fuel else Ret (zlen t, t).
Proof.
  intros s t K n H HK. destruct (holds_size _ _ H) as [S B]. unfold stringptr_tofile.
  assert (G : forall n p, 0 <= p <= zlen t -> tofile_loop (repeat (Xfer K) n) s p (ztake p t) = if 65536 * Z.of_nat n <? zlen t - p then Fuel else Ret (zlen t, t)).
  { clear n. induction n as [|n IH]; intros p P; cbn [repeat tofile_loop]; destruct (p <? sz s) eqn:E.
    - replace (65536 * Z.of_nat 0 <? zlen t - p) with true by lia. reflexivity.
    - replace (65536 * Z.of_nat 0 <? zlen t - p) with false by lia. replace p with (zlen t) by lia. now rewrite ztake_all by lia.
    - pose proof (chunk_ok (sz s - p) ltac:(lia)) as C. rewrite (holds_part s t) by (auto; lia). cbn [bind]. unfold clamp.
      assert (CC : chunk (sz s - p) = Z.min 65536 (sz s - p)) by (unfold chunk; destruct (65536 <? sz s - p) eqn:Q; lia).
      replace (Z.max 0 (Z.min K (chunk (sz s - p)))) with (chunk (sz s - p)) by lia. rewrite ztake_ztake, ztake_more by lia. rewrite IH by lia. rewrite CC.
      destruct (65536 * Z.of_nat n <? zlen t - (p + Z.min 65536 (sz s - p))) eqn:Q1; destruct (65536 * Z.of_nat (Datatypes.S n) <? zlen t - p) eqn:Q2; try reflexivity; lia.
    - replace (65536 * Z.of_nat (Datatypes.S n) <? zlen t - p) with false by lia. replace p with (zlen t) by lia. now rewrite ztake_all by lia. }
  specialize (G n 0 ltac:(pose proof (zlen_nonneg t); lia)). rewrite ztake_0, Z.sub_0_r in G. exact G.
Qed.
Print Assumptions c54_tofile_calls.
Lemma fromfile_calls size content hd K : zlen hd = 16 -> 65536 <= K -> size <= zlen content -> forall n dn rest,
  zlen dn + zlen rest = size -> (fromfile_loop (repeat (Xfer K) n) size content (hd ++ dn ++ rest ++ [0]) 16 (zlen dn) = Fuel <-> 65536 * Z.of_nat n < zlen rest).
Proof.
  intros Lh HK Hs. induction n as [|n IH]; intros dn rest L; cbn [repeat fromfile_loop]; zpos; destruct (zlen dn <? size) eqn:E.
  - split; [lia|reflexivity].
  - split; [discriminate|lia].
  - assert (CC : chunk (size - zlen dn) = Z.min 65536 (zlen rest)) by (unfold chunk; destruct (65536 <? size - zlen dn) eqn:Q; lia).
    unfold clamp. rewrite CC. set (w := Z.max 0 (Z.min K (Z.min 65536 (zlen rest)))). assert (W : w = Z.min 65536 (zlen rest)) by lia. clearbody w. set (d := ztake w (zdrop (zlen dn) content)).
    assert (Ld : zlen d = w) by (unfold d; rewrite zlen_ztake; [lia|rewrite zlen_zdrop; lia]).
    destruct (zsplit (zlen d) rest) as (r1 & r2 & -> & L1); [zpos; lia|].
    replace (hd ++ dn ++ (r1 ++ r2) ++ [0]) with ((hd ++ dn) ++ r1 ++ (r2 ++ [0])) by (now rewrite <- !app_assoc).
    rewrite zwrites_at by (auto; zl; lia). cbn [bind].
    replace ((hd ++ dn) ++ d ++ r2 ++ [0]) with (hd ++ (dn ++ d) ++ r2 ++ [0]) by (now rewrite <- !app_assoc).
    rewrite zlen_app in *. replace (zlen dn + zlen d) with (zlen (dn ++ d)) by (rewrite zlen_app; lia). rewrite IH by (rewrite zlen_app; lia). split; intros; lia.
  - split; [discriminate|lia].
Qed.
(** and so does reading a file *)
Theorem c54_fromfile_calls : forall junk K n content, 1 <= zlen content < 2 ^ 64 - 17 -> 65536 <= K ->
  if 65536 * Z.of_nat n <? zlen content then stringptr_fromfile (zlen content) true (Some junk) (repeat (Xfer K) n) content = Fuel
  else exists r, stringptr_fromfile (zlen content) true (Some junk) (repeat (Xfer K) n) content = Ret (Some r) /\ new_with r content.
Proof.
  intros junk K n content L HK.
  assert (FI : stringptr_fromfile (zlen content) true (Some junk) (repeat (Xfer K) n) content = Fuel <-> 65536 * Z.of_nat n < zlen content).
  { unfold stringptr_fromfile. replace (_ =? 0) with false by lia. cbn [negb]. destruct (new_ok junk (zlen content)) as (hd & body & L1 & L2 & EN); [lia|]. rewrite EN. cbn [bind sb so sz].
    pose proof (fromfile_calls (zlen content) content hd K L1 HK ltac:(lia) n [] body L2) as D. cbn [app] in D. change (zlen (@nil Z)) with 0 in D. rewrite L2 in D. rewrite <- D. destruct (fromfile_loop _ _ _ _ _ _); cbn [bind]; split; congruence. }
  destruct (65536 * Z.of_nat n <? zlen content) eqn:E; [apply FI; lia|].
  destruct (fromfile_ok (zlen content) true (Some junk) (repeat (Xfer K) n) content ltac:(lia)) as [X|[(X & [I|[I|[I|I]]])|(r & X & _ & N)]]; try (discriminate I); try lia.
  - apply FI in X. lia.
  - apply repeat_spec in I. discriminate.
  - exists r. rewrite ztake_all in N by lia. auto.
Qed.
Print Assumptions c54_fromfile_calls.
Example c54_calls_example : stringptr_tofile true [Xfer 70000] (mkSp [1; 2; 3; 0] 0 3) = Ret (3, [1; 2; 3]) /\ stringptr_tofile true [] (mkSp [1; 2; 3; 0] 0 3) = Fuel /\ chunk 65537 = 65536 /\ chunk 65536 = 65536.
Proof. repeat split; vm_compute; reflexivity. Qed.
