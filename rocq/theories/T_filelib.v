(** C47-C50: filelib.  A path object is pre ++ t ++ 0 :: post with ptr at |pre| and size |t|. *)
From Verif Require Import Base Cstr M_stringptr M_filelib S_stringptr S_filelib D_stringptr P_stringptr P_filelib.

Section T.
Variables (fuel : nat).

(** C47: normalizepath; k: bytes of the old text behind the new terminator *)
Theorem c47_normalizepath buf pre t post :
  nz t -> bytes t -> zlen buf = 4096 -> zlen t < 4096 -> (length t < fuel)%nat ->
  let p := mkSp (pre ++ t ++ 0 :: post) (zlen pre) (zlen t) in
  match normal t with
  | None => normalizepath fuel buf p = Ret (0, p)
  | Some r => exists k, normalizepath fuel buf p = Ret (1, mkSp (pre ++ r ++ 0 :: k ++ post) (zlen pre) (zlen r)) /\ zlen (r ++ k) = zlen t
  end.
Proof. intros N B L Lt Hf p. apply normalizepath_ok; auto; lia. Qed.
Theorem c47_normalizepath_cstr t post o g :
  nz t -> bytes t -> zlen o = zlen t + 1 -> zlen o + zlen g < 2 ^ 63 -> (length t < fuel)%nat ->
  match normal t with
  | None => normalizepath_cstr fuel (t ++ 0 :: post) (o ++ g) = Ret None
  | Some r => exists k, normalizepath_cstr fuel (t ++ 0 :: post) (o ++ g) = Ret (Some (r ++ 0 :: k ++ g)) /\ zlen (r ++ k) = zlen t
  end.
Proof. intros. now apply normalizepath_cstr_ok. Qed.
(** the two functions agree: same success, and then the same string *)
Theorem c47_variants_agree buf pre t post post' o :
  nz t -> bytes t -> zlen buf = 4096 -> zlen t < 4096 -> zlen o = zlen t + 1 -> (length t < fuel)%nat ->
  (exists p, normalizepath fuel buf (mkSp (pre ++ t ++ 0 :: post) (zlen pre) (zlen t)) = Ret (0, p) /\ normalizepath_cstr fuel (t ++ 0 :: post') o = Ret None) \/
  (exists r a b, normalizepath fuel buf (mkSp (pre ++ t ++ 0 :: post) (zlen pre) (zlen t)) = Ret (1, mkSp (pre ++ r ++ 0 :: a) (zlen pre) (zlen r)) /\
                 normalizepath_cstr fuel (t ++ 0 :: post') o = Ret (Some (r ++ 0 :: b))).
Proof.
  intros N B L Lt Lo Hf. pose proof (c47_normalizepath buf pre t post N B L Lt Hf) as H1. cbv zeta in H1.
  pose proof (c47_normalizepath_cstr t post' o [] N B Lo ltac:(change (zlen (@nil Z)) with 0; lia) Hf) as H2. rewrite app_nil_r in H2.
  destruct (normal t) as [r|].
  - right. destruct H1 as (k & H1 & _), H2 as (k' & H2 & _). eauto.
  - left. eauto.
Qed.
Theorem c47_relative_fails buf pre t post :
  nz t -> bytes t -> zlen buf = 4096 -> zlen t < 4096 -> (length t < fuel)%nat -> (forall r, t <> 47 :: r) ->
  let p := mkSp (pre ++ t ++ 0 :: post) (zlen pre) (zlen t) in normalizepath fuel buf p = Ret (0, p).
Proof.
  intros N B L Lt Hf R p. pose proof (c47_normalizepath buf pre t post N B L Lt Hf) as H. cbv zeta in H.
  replace (normal t) with (@None (list Z)) in H; [exact H|]. destruct t as [|c t]; [reflexivity|]. cbn. destruct (Z.eqb_spec c 47) as [->|]; [exfalso; now apply (R t)|reflexivity].
Qed.

(** C48 *)
Theorem c48_fixed_point buf pre t r post :
  normal t = Some r -> nz r -> bytes r -> zlen buf = 4096 -> zlen r < 4096 -> (length r < fuel)%nat ->
  let p := mkSp (pre ++ r ++ 0 :: post) (zlen pre) (zlen r) in normalizepath fuel buf p = Ret (1, p).
Proof.
  intros H N B L Lr Hf p. pose proof (c47_normalizepath buf pre r post N B L Lr Hf) as G. cbv zeta in G. rewrite (normal_idem t r H) in G.
  destruct G as (k & G & K). assert (k = []) by (apply zlen_0; revert K; zl; lia). subst k. exact G.
Qed.
Theorem c48_canonical t r : normal t = Some r ->
  exists q, r = 47 :: q /\ (q = [] \/ Forall (fun c => c <> [] /\ c <> [46] /\ c <> [46; 46]) (comps q)).
Proof. exact (normal_canon t r). Qed.
Theorem c48_no_double_slash t r a b : normal t = Some r -> r <> a ++ [47; 47] ++ b.
Proof. exact (normal_no_double t r a b). Qed.
Theorem c48_no_trailing_slash t r a : normal t = Some r -> r = a ++ [47] -> a = [].
Proof. exact (normal_no_trail t r a). Qed.
(** with an output buffer of exactly strlen+1 bytes and nothing behind the terminator of the
    path, normalizepath_cstr still runs: no access outside *)
Theorem c48_cstr_in_bounds t o : nz t -> bytes t -> zlen o = zlen t + 1 -> zlen o < 2 ^ 63 -> (length t < fuel)%nat ->
  exists r, normalizepath_cstr fuel (t ++ [0]) o = Ret r.
Proof.
  intros N B L Lo Hf. pose proof (c47_normalizepath_cstr t [] o [] N B L ltac:(change (zlen (@nil Z)) with 0; lia) Hf) as H. rewrite app_nil_r in H.
  destruct (normal t); [destruct H as (k & H & _)|]; eauto.
Qed.

(** C49 *)
Theorem c49_getpathdiff_child_partial buf1 buf2 pre1 t1 post1 pre2 t2 post2 u w r1 r2 s :
  nz t1 -> bytes t1 -> zlen buf1 = 4096 -> zlen t1 < 4096 -> (length t1 < fuel)%nat ->
  nz t2 -> bytes t2 -> zlen buf2 = 4096 -> zlen t2 < 4096 -> (length t2 < fuel)%nat ->
  normal t1 = Some r1 -> normal t2 = Some r2 ->
  (r1 <> [47] /\ r2 = r1 ++ s) \/ (r1 = [47] /\ r2 = s) -> zlen u = zlen s + 1 ->
  exists q1 q2, getpathdiff fuel buf1 buf2 (mkSp (pre1 ++ t1 ++ 0 :: post1) (zlen pre1) (zlen t1)) (mkSp (pre2 ++ t2 ++ 0 :: post2) (zlen pre2) (zlen t2)) (u ++ w)
                = Ret (zlen s, q1, q2, s ++ [0] ++ w).
Proof.
  intros N1 B1 L1 T1 F1 N2 B2 L2 T2 F2 H1 H2 HS HU.
  destruct (diff_ok fuel buf1 buf2 pre1 t1 post1 pre2 t2 post2 (u ++ w)) as (q1 & q2 & A & _); auto; try lia.
  exists q1, q2. apply (A s u w); auto. unfold norm_or. rewrite H1, H2. unfold base.
  destruct HS as [[R ->]|[-> ->]]; [|reflexivity]. destruct (normal_canon _ _ H1) as (q & -> & _). destruct q; [congruence|]. replace (_ =? 1) with false by (zl; zpos; lia). reflexivity.
Qed.
Theorem c49_getpathdiff_other_partial buf1 buf2 pre1 t1 post1 pre2 t2 post2 work r1 r2 :
  nz t1 -> bytes t1 -> zlen buf1 = 4096 -> zlen t1 < 4096 -> (length t1 < fuel)%nat ->
  nz t2 -> bytes t2 -> zlen buf2 = 4096 -> zlen t2 < 4096 -> (length t2 < fuel)%nat ->
  normal t1 = Some r1 -> normal t2 = Some r2 -> r1 <> [47] -> (forall s, r2 <> r1 ++ s) -> zlen r1 <> zlen r2 ->
  exists q1 q2, getpathdiff fuel buf1 buf2 (mkSp (pre1 ++ t1 ++ 0 :: post1) (zlen pre1) (zlen t1)) (mkSp (pre2 ++ t2 ++ 0 :: post2) (zlen pre2) (zlen t2)) work
                = Ret (-1, q1, q2, work).
Proof.
  intros N1 B1 L1 T1 F1 N2 B2 L2 T2 F2 H1 H2 NR HS HL.
  destruct (diff_ok fuel buf1 buf2 pre1 t1 post1 pre2 t2 post2 work) as (q1 & q2 & _ & A & _); auto; try lia.
  apply A. unfold norm_or. rewrite H1, H2. unfold base. destruct (normal_canon _ _ H1) as (q & -> & _). destruct q as [|c q]; [congruence|].
  replace (zlen (47 :: c :: q) =? 1) with false by (zl; zpos; lia). destruct (Z_lt_le_dec (zlen r2) (zlen (47 :: c :: q))) as [G|G]; [now left|right]. split; [lia|].
  intros E. apply (HS (zdrop (zlen (47 :: c :: q)) r2)). rewrite <- E at 1. symmetry. apply ztake_zdrop.
Qed.
(** C50: name has a dot; q: what is behind the name *)
Theorem c50_getFileExt_partial a e q : ~ In 46 e -> getFileExt (a ++ 46 :: e ++ q) (zlen (a ++ 46 :: e)) = Ret (Some (zlen (a ++ [46]))).
Proof. exact (ext_ok a e q). Qed.
(** without a dot (and not empty) the result is the name without its first byte, not NULL *)
Theorem c50_no_dot_refuted c n q : ~ In 46 n -> getFileExt ((c :: n) ++ q) (zlen (c :: n)) = Ret (Some 1).
Proof. exact (ext_none c n q). Qed.
End T.
Print Assumptions c47_normalizepath.
Print Assumptions c47_normalizepath_cstr.
Print Assumptions c47_variants_agree.
Print Assumptions c47_relative_fails.
Print Assumptions c48_fixed_point.
Print Assumptions c48_canonical.
Print Assumptions c48_no_double_slash.
Print Assumptions c48_no_trailing_slash.
Print Assumptions c48_cstr_in_bounds.
Print Assumptions c49_getpathdiff_child_partial.
Print Assumptions c49_getpathdiff_other_partial.
Print Assumptions c50_getFileExt_partial.
Print Assumptions c50_no_dot_refuted.

(** "/a//./b/../c/" -> "/a/c" *)
Example c47_ex :
  normalizepath 40 (zrepeat 7 4096) (mkSp [47;97;47;47;46;47;98;47;46;46;47;99;47;0] 0 13) = Ret (1, mkSp [47;97;47;99;0;47;98;47;46;46;47;99;47;0] 0 4)
  /\ normal [47;97;47;47;46;47;98;47;46;46;47;99;47] = Some [47;97;47;99].
Proof. split; vm_compute; reflexivity. Qed.
(** "/a/../.." climbs above the root; the path is left alone *)
Example c47_ex_fail : normalizepath 40 (zrepeat 7 4096) (mkSp [47;97;47;46;46;47;46;46;0] 0 8) = Ret (0, mkSp [47;97;47;46;46;47;46;46;0] 0 8).
Proof. vm_compute. reflexivity. Qed.
(** "/..a/.b" into a buffer of 8 bytes *)
Example c47_ex_cstr : normalizepath_cstr 40 [47;46;46;97;47;46;98;0] (zrepeat 7 8) = Ret (Some [47;46;46;97;47;46;98;0]).
Proof. vm_compute. reflexivity. Qed.

(** C48: a path of PATH_MAX bytes writes its terminator behind buf[PATH_MAX] *)
Theorem c48_stack_overflow_refuted :
  normalizepath 5000 (zrepeat 0 4096) (mkSp (47 :: zrepeat 97 4095 ++ [0]) 0 4096) = UB.
Proof. vm_compute. reflexivity. Qed.
Print Assumptions c48_stack_overflow_refuted.

(** C49: "/ab" and "/cd" give 0 like equal paths; "/foo" and "/foobar" give "bar" *)
Theorem c49_equal_length_refuted :
  getpathdiff 40 (zrepeat 0 4096) (zrepeat 0 4096) (mkSp [47;97;98;0] 0 3) (mkSp [47;99;100;0] 0 3) (zrepeat 7 10)
  = Ret (0, mkSp [47;97;98;0] 0 3, mkSp [47;99;100;0] 0 3, 0 :: zrepeat 7 9).
Proof. vm_compute. reflexivity. Qed.
Print Assumptions c49_equal_length_refuted.
Theorem c49_sibling_refuted :
  getpathdiff 40 (zrepeat 0 4096) (zrepeat 0 4096) (mkSp [47;102;111;111;0] 0 4) (mkSp [47;102;111;111;98;97;114;0] 0 7) (zrepeat 7 10)
  = Ret (3, mkSp [47;102;111;111;0] 0 4, mkSp [47;102;111;111;98;97;114;0] 0 7, [98;97;114;0] ++ zrepeat 7 6).
Proof. vm_compute. reflexivity. Qed.
Print Assumptions c49_sibling_refuted.
(** "/a/" and "/a/b": "/b" *)
Example c49_ex :
  getpathdiff 40 (zrepeat 0 4096) (zrepeat 0 4096) (mkSp [47;97;47;0] 0 3) (mkSp [47;97;47;98;0] 0 4) (zrepeat 7 4)
  = Ret (2, mkSp [47;97;0;0] 0 2, mkSp [47;97;47;98;0] 0 4, [47;98;0;7]).
Proof. vm_compute. reflexivity. Qed.
Example c50_ex : getFileExt [97;46;98;46;116;120;116;0] 7 = Ret (Some 4) /\ getFileExt [46;99;0] 2 = Ret (Some 1) /\ getFileExt [97;98;0] 2 = Ret (Some 1).
Proof. repeat split; vm_compute; reflexivity. Qed.
