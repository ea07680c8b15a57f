(** C30: when the decoded bytes are followed by a NUL *)
From Verif Require Import Base Bits M_base64 S_base64 P_base64 T_base64.

(** the byte behind the pad'th last character's bits: dst' has it right behind the decoded bytes *)
Lemma raw_at s pad x : is_b64 s pad -> znth 1 (b64_raw s ++ 0 :: x) (zlen s / 4 * 3 - pad) = 0 <-> pad = 0 \/ value_of (znth 0 s (zlen s - pad - 1)) mod 4 ^ pad = 0.
Proof.
  intros (body & E & _ & Hp & Hm). assert (Ls : zlen s = zlen body + pad) by (rewrite E, zlen_app, zlen_zrepeat; lia). rewrite <- Ls in Hm. zpos.
  destruct (Z.eq_dec pad 0) as [->|P0]. { split; [auto|]. intros _. rewrite Z.sub_0_r, <- (zlen_b64_raw s Hm), znth_app2, Z.sub_diag by lia. reflexivity. }
  assert (L4 : 4 <= zlen s). { generalize (Z.div_mod (zlen s) 4 ltac:(lia)). rewrite Hm. lia. }
  destruct (zsplit (zlen s - 4) s) as (u & g & Es & Lu); [lia|]. assert (Lg : zlen g = 4) by (rewrite Es, zlen_app in Lu; lia).
  assert (Hu : zlen u mod 4 = 0) by (rewrite Lu, Zminus_mod, Hm; reflexivity). assert (Lr : zlen s / 4 * 3 = zlen (b64_raw u) + 3). { rewrite zlen_b64_raw by exact Hu. rewrite Lu. replace (zlen s) with (zlen s - 4 + 1 * 4) at 1 by lia. rewrite Z.div_add by lia. lia. }
  destruct g as [|c0 [|c1 [|c2 [|c3 [|? ?]]]]]; rewrite ?zlen_cons in Lg; change (zlen (@nil Z)) with 0 in Lg; zpos; try lia.
  assert (Ls' : zlen s - 1 = zlen u + 3) by lia.
  assert (A : forall i, 0 <= i < pad -> znth 0 s (zlen s - 1 - i) = 61). { intros i Hi. rewrite E at 1. rewrite znth_app2 by lia. rewrite znth_zrepeat by lia. reflexivity. }
  assert (R : b64_raw s = b64_raw u ++ raw4 (value_of c0) (value_of c1) (value_of c2) (value_of c3)). { rewrite Es, b64_raw_app by exact Hu. rewrite b64_raw_4. rewrite b64_raw_nil, app_nil_r. reflexivity. }
  assert (N : forall i, 0 <= i < 4 -> znth 0 s (zlen u + i) = znth 0 [c0; c1; c2; c3] i). { intros i Hi. rewrite Es, znth_app2 by lia. f_equal. lia. }
  assert (C3 : c3 = 61). { pose proof (A 0 ltac:(lia)) as X. replace (zlen s - 1 - 0) with (zlen u + 3) in X by lia. rewrite N in X by lia. exact X. } rewrite R, Lr.
  assert (pad = 1 \/ pad = 2) as [-> | ->] by lia.
  - replace (zlen s - 1 - 1) with (zlen u + 2) by lia. rewrite N by lia. rewrite <- app_assoc, znth_app2 by lia. replace (zlen (b64_raw u) + 3 - 1 - zlen (b64_raw u)) with 2 by lia. subst c3. unfold raw4. change (znth 0 [c0; c1; c2; 61] 2) with c2. change (4 ^ 1) with 4.
    match goal with |- znth 1 ?l 2 = 0 <-> _ => change (znth 1 l 2) with (value_of c2 mod 4 * 64 + value_of 61) end. change (value_of 61) with 0. generalize (value_of c2 mod 4). lia.
  - assert (C2 : c2 = 61). { pose proof (A 1 ltac:(lia)) as X. replace (zlen s - 1 - 1) with (zlen u + 2) in X by lia. rewrite N in X by lia. exact X. }
    replace (zlen s - 2 - 1) with (zlen u + 1) by lia. rewrite N by lia. rewrite <- app_assoc, znth_app2 by lia. replace (zlen (b64_raw u) + 3 - 2 - zlen (b64_raw u)) with 1 by lia. subst c3 c2. unfold raw4. change (znth 0 [c0; c1; 61; 61] 1) with c1. change (4 ^ 2) with 16.
    match goal with |- znth 1 ?l 1 = 0 <-> _ => change (znth 1 l 1) with (value_of c1 mod 16 * 16 + value_of 61 / 4) end. change (value_of 61 / 4) with 0. generalize (value_of c1 mod 16). lia.
Qed.
(** exactly when no '=' is there, or the bits the '=' signs cut off are zero *)
Theorem c30_terminated_iff : forall dst dst_len s rest pad, 0 <= dst_len <= zlen dst -> dst_len < 2 ^ 64 -> bytes s -> Forall (fun c => c <> 0) s -> zlen s <= 2147483647 ->
  is_b64 s pad -> zlen s / 4 * 3 + 1 <= dst_len ->
  exists r dst', base64dec dst (s ++ 0 :: rest) dst_len = Ret (r, dst') /\
    (znth 1 dst' r = 0 <-> pad = 0 \/ value_of (znth 0 s (zlen s - pad - 1)) mod 4 ^ pad = 0).
Proof.
  intros dst dst_len s rest pad H1 H2 H3 H4 H5 H6 H7. destruct (c30_base64dec_safe_and_strict dst dst_len s rest H1 H2 H3 H4 H5) as (r & dst' & E & _ & _ & G & _). destruct (G pad H6 H7) as (-> & _ & ->). do 2 eexists. split; [exact E|]. now apply raw_at.
Qed.
Print Assumptions c30_terminated_iff.
(* "Zm8=" and "Zm9=" *)
Example c30_term_ex : value_of 56 mod 4 ^ 1 = 0 /\ value_of 57 mod 4 ^ 1 = 1 /\ base64dec [9; 9; 9; 9] [90; 109; 56; 61; 0] 4 = Ret (2, [102; 111; 0; 0]) /\ base64dec [9; 9; 9; 9] [90; 109; 57; 61; 0] 4 = Ret (2, [102; 111; 64; 0]).
Proof. repeat split. Qed.
