(** C125: fileparser_getnextlinelength when read or lseek fails *)
From Verif Require Import Base Bits M_fileparser S_fileparser P_fileparser M_fpfail P_fpfail.

(** p: a parser at rest before c ++ r, c being k pieces of 1024 bytes without LF that are read
    without a fault *)
Section C125.
Variables (fs : faults) (fin : option Z) (k fuel : nat) (pre c r : list Z) (p : fp) (b : list Z).
Hypotheses (Hfd : ffd p <> 0) (Ec : fcont p = pre ++ c ++ r) (Eo : foff p = zlen pre) (Ep : fpos p = foff p) (Hs : zlen (fcont p) < 2 ^ 63)
  (Nr : r <> []) (Nc : ~ In 10 c) (Lc : zlen c = 1024 * Z.of_nat k) (Lb : zlen b = 1024)
  (F : forall j, 0 <= j < Z.of_nat k -> fs j = (None, None, None)).
Lemma rest : at_rest p (c ++ r).
Proof using All. split; [exact Hfd|]. split; [exact Hs|]. split; [|intros _; exact Ep]. exists pre. auto. Qed.

(** read fails: -1, and the parser stays behind the pieces already read *)
Theorem c125_read_fails : forall e sk sk2, fs (Z.of_nat k) = (Some e, sk, sk2) -> 0 < e ->
  exists p' b', getnextlinelength_f (k + S fuel) fs fin p b = Ret (-1, p', b') /\ fpos p' = fpos p + 1024 * Z.of_nat k /\ foff p' = fpos p'.
Proof using All.
  intros e sk sk2 E He. destruct (fail_read fs fin k fuel c r p b rest Nr Nc Lc Lb F e sk sk2 E He) as (p' & b' & G & _ & _ & X & Y). eauto.
Qed.
(** so the next line read is the same line without those pieces *)
Theorem c125_line_cut_refuted : forall e sk sk2 l r', fs (Z.of_nat k) = (Some e, sk, sk2) -> 0 < e -> r = l ++ 10 :: r' -> ~ In 10 l -> zlen l < 1024 ->
  exists p' b' p2 b2, getnextlinelength_f (k + S fuel) fs fin p b = Ret (-1, p', b') /\ readline None None p' b' = Ret (0, p2, b2) /\ getline p2 b2 = Ret l.
Proof using All.
  intros e sk sk2 l r' E He Er Nl Ll. destruct (fail_read fs fin k fuel c r p b rest Nr Nc Lc Lb F e sk sk2 E He) as (p' & b' & G & L' & AR & _). rewrite Er in AR.
  destruct (readline_lf p' l r' b' [] 1024 AR Nl L' Ll) as (p2 & b2 & R & L2 & FL & T & _). rewrite !app_nil_r in R. exists p', b', p2, b2. split; [exact G|]. split; [exact R|]. unfold getline. rewrite FL.
  rewrite <- (ztake_zdrop (zlen l + 1) b2), T, <- app_assoc. pose proof (zreads_at [] l ([0] ++ zdrop (zlen l + 1) b2) 0 (zlen l) eq_refl eq_refl) as Q. exact Q.
Qed.
(** the lseek of fileparser_readline fails: -1, and the file offset stays behind all that was read *)
Theorem c125_seek_fails : forall e sk2, fs (Z.of_nat k) = (None, Some e, sk2) -> 0 < e -> In 10 (ztake 1024 r) \/ 1024 <= zlen r ->
  exists p' b', getnextlinelength_f (k + S fuel) fs fin p b = Ret (-1, p', b') /\ foff p' = fpos p + 1024 * Z.of_nat k + Z.min 1024 (zlen r).
Proof using All. exact (fail_seek fs fin k fuel c r p b rest Nr Nc Lc Lb F). Qed.
(** the lseek over a piece fails: -1, and the parser counts the piece as passed but the file offset is before it *)
Theorem c125_skip_fails : forall e, fs (Z.of_nat k) = (None, None, Some e) -> 1024 <= zlen r -> ~ In 10 (ztake 1024 r) ->
  exists p' b', getnextlinelength_f (k + S fuel) fs fin p b = Ret (-1, p', b') /\ fpos p' = fpos p + 1024 * (Z.of_nat k + 1) /\ foff p' = fpos p + 1024 * Z.of_nat k.
Proof using All. exact (fail_skip fs fin k fuel c r p b rest Nr Nc Lc Lb F). Qed.
(** no fault up to the LF: the length; if only the last lseek fails -1, the parser's position is put
    back and the file offset is behind the line *)
Theorem c125_line : forall sk2 l r', r = l ++ 10 :: r' -> ~ In 10 l -> zlen l < 1024 -> fs (Z.of_nat k) = (None, None, sk2) ->
  exists p' b', getnextlinelength_f (k + S fuel) fs fin p b = Ret (match fin with None => zlen c + zlen l | Some _ => -1 end, p', b') /\ fpos p' = fpos p /\
    foff p' = match fin with None => fpos p | Some _ => fpos p + zlen c + zlen l + 1 end.
Proof using All. exact (last_lf fs fin k fuel c r p b rest Nr Nc Lc Lb F). Qed.
(** the same for a last line without LF, where no lseek is made for the last piece *)
Theorem c125_last_line : forall sk sk2, ~ In 10 r -> zlen r < 1024 -> fs (Z.of_nat k) = (None, sk, sk2) ->
  exists p' b', getnextlinelength_f (k + S fuel) fs fin p b = Ret (match fin with None => zlen c + zlen r | Some _ => -1 end, p', b') /\ fpos p' = fpos p /\
    (fin = None -> foff p' = fpos p).
Proof using All. exact (last_end fs fin k fuel c r p b rest Nr Nc Lc Lb F). Qed.
End C125.
Print Assumptions c125_read_fails.
Print Assumptions c125_line_cut_refuted.
Print Assumptions c125_seek_fails.
Print Assumptions c125_skip_fails.
Print Assumptions c125_line.
Print Assumptions c125_last_line.
(** without faults it is the function of C52 *)
Theorem c125_no_faults : forall fs fuel p b, (forall i, 0 <= i -> fs i = (None, None, None)) -> getnextlinelength_f fuel fs None p b = getnextlinelength fuel p b.
Proof. intros fs fuel p b H. now apply getnext_same. Qed.
Print Assumptions c125_no_faults.
(** a line of 2050 bytes: EIO from the second read, a failing lseek of each kind *)
Example c125_ex :
  let p := fileparser_open 3 0 (repeat 65 2050 ++ [10; 66]) in
  let run fs fin := match getnextlinelength_f 9 fs fin p (repeat 7 1024) with Ret (r, q, _) => Some (r, fpos q, foff q) | _ => None end in
  let at1 x := fun i => if i =? 1 then x else (None, None, None) in
  run (at1 (None, None, None)) None = Some (2050, 0, 0) /\ run (at1 (Some 5, None, None)) None = Some (-1, 1024, 1024) /\ run (at1 (None, Some 29, None)) None = Some (-1, 1024, 2048) /\
  run (at1 (None, None, Some 29)) None = Some (-1, 2048, 1024) /\ run (at1 (None, None, None)) (Some 29) = Some (-1, 0, 2051).
Proof. vm_compute. repeat split. Qed.
