From Verif Require Import Base Bits M_fileparser S_fileparser D_fileparser P_fileparser M_fpfail.

Lemma no_faults fs : (forall i, 0 <= i -> fs i = (None, None, None)) -> forall fuel i p buf res, 0 <= i ->
  nextlen_loop_f fuel fs i p buf res = let* (ret, res, p, buf) := nextlen_loop fuel p buf res in Ret (Some (ret, res), p, buf).
Proof.
  intros H. induction fuel as [|fuel IH]; intros i p buf res Hi; [reflexivity|]. cbn [nextlen_loop_f nextlen_loop]. rewrite H by exact Hi. destruct (readline None None p buf) as [[[r q] b]| |]; cbn [bind]; auto. destruct (r =? -3); [|reflexivity]. rewrite IH by lia. reflexivity.
Qed.
Lemma getnext_same fs fuel p buf : (forall i, 0 <= i -> fs i = (None, None, None)) -> getnextlinelength_f fuel fs None p buf = getnextlinelength fuel p buf.
Proof.
  intros H. unfold getnextlinelength_f, getnextlinelength. rewrite (no_faults fs H) by lia. destruct (nextlen_loop fuel p buf 0) as [[[[r q] b] c]| |]; cbn [bind]; auto.
Qed.
(** the parser after k whole pieces *)
Definition after (p : fp) (k : Z) : fp := mkFp (fpos p + 1024 * k) (if k =? 0 then flen p else 1024) (ffd p) (fcont p) (if k =? 0 then foff p else fpos p + 1024 * k).
Lemma skip fs : forall k fuel i c r p b res, at_rest p (c ++ r) -> r <> [] -> no_lf c -> zlen c = 1024 * Z.of_nat k -> zlen b = 1024 -> 0 <= i -> 0 <= res -> res + zlen c < 2 ^ 63 ->
  (forall j, i <= j < i + Z.of_nat k -> fs j = (None, None, None)) ->
  exists b', zlen b' = 1024 /\ at_rest (after p (Z.of_nat k)) r /\ nextlen_loop_f (k + fuel) fs i p b res = nextlen_loop_f fuel fs (i + Z.of_nat k) (after p (Z.of_nat k)) b' (res + zlen c).
Proof.
  induction k as [|k IH]; intros fuel i c r p b res Hr Nr Nl Lc Lb Hi R0 R1 F.
  - assert (c = []) as -> by (destruct c; [reflexivity|rewrite zlen_cons in Lc; zpos; lia]). cbn [app] in Hr. assert (E : after p (Z.of_nat 0) = p). { unfold after. cbn. rewrite Z.add_0_r. now destruct p. } rewrite E. exists b. split; [exact Lb|]. split; [exact Hr|]. change (zlen (@nil Z)) with 0. rewrite !Z.add_0_r. reflexivity.
  - destruct (zsplit 1024 c) as (c1 & c2 & -> & L1); [lia|]. rewrite zlen_app in Lc, R1. apply no_lf_app in Nl as [N1 N2]. rewrite <- app_assoc in Hr. assert (Nc : c1 <> []) by (intros ->; discriminate L1).
    cbn [Nat.add nextlen_loop_f]. rewrite (F i) by lia. unfold readline.
    pose proof (readline_long p c1 (c2 ++ r) b [] 1024 Hr N1 L1 Lb ltac:(lia)) as E. rewrite !app_nil_r in E. rewrite E. cbn [bind]. change (-3 =? -3) with true. cbn iota. cbn [fpos flen ffd fcont foff].
    pose proof (step_rest _ _ _ Hr Nc L1) as SR. assert (U : u64 (fpos p + 1024) = fpos p + 1024).
    { destruct Hr as (Hfd & Hcc & (a & Ea & Eo) & Hp). specialize (Hp ltac:(destruct c1; [congruence|discriminate])). rewrite Ea, !zlen_app in Hcc. zpos. apply u64_id. lia. }
    rewrite U in *. unfold set_off. cbn [fpos flen ffd fcont foff]. rewrite (u64_id (res + 1024)) by (zpos; lia).
    destruct (IH fuel (i + 1) c2 r _ c1 (res + 1024) SR Nr N2 ltac:(lia) L1 ltac:(lia) ltac:(lia) ltac:(lia)) as (b' & Lb' & AR & EQ). { intros j Hj. apply F. lia. }
    assert (AE : after (mkFp (fpos p + 1024) 1024 (ffd p) (fcont p) (fpos p + 1024)) (Z.of_nat k) = after p (Z.of_nat (S k))).
    { unfold after. cbn [fpos flen ffd fcont foff]. replace (Z.of_nat (S k) =? 0) with false by lia. f_equal; [lia|destruct (_ =? 0); reflexivity|destruct (Z.eqb_spec (Z.of_nat k) 0); lia]. }
    rewrite AE in *. exists b'. split; [exact Lb'|]. split; [exact AR|]. rewrite EQ. f_equal; [lia|rewrite zlen_app; lia].
Qed.

Section Fail.
Variables (fs : faults) (fin : option Z) (k : nat) (fuel : nat) (c r : list Z) (p : fp) (b : list Z).
Hypotheses (Hr : at_rest p (c ++ r)) (Nr : r <> []) (Nc : no_lf c) (Lc : zlen c = 1024 * Z.of_nat k) (Lb : zlen b = 1024).
Hypothesis F : forall j, 0 <= j < Z.of_nat k -> fs j = (None, None, None).
Lemma pos_rest : fpos p = foff p /\ 0 <= foff p /\ foff p + zlen c + zlen r < 2 ^ 63.
Proof using All. destruct Hr as (_ & H & (a & E & O) & X). split; [apply X; destruct c; [exact Nr|discriminate]|]. rewrite E, !zlen_app in H. zpos. lia. Qed.
Lemma to_piece : exists b', zlen b' = 1024 /\ at_rest (after p (Z.of_nat k)) r /\ nextlen_loop_f (k + S fuel) fs 0 p b 0 = nextlen_loop_f (S fuel) fs (Z.of_nat k) (after p (Z.of_nat k)) b' (1024 * Z.of_nat k).
Proof using All.
  destruct pos_rest as (_ & B1 & B2). zpos. destruct (skip fs k (S fuel) 0 c r p b 0 Hr Nr Nc Lc Lb) as (b' & Lb' & AR & E); try lia; auto. exists b'. rewrite E. split; [exact Lb'|]. split; [exact AR|]. f_equal; lia.
Qed.
Lemma after_pos : fpos (after p (Z.of_nat k)) = fpos p + 1024 * Z.of_nat k /\ foff (after p (Z.of_nat k)) = fpos p + 1024 * Z.of_nat k.
Proof using All. destruct pos_rest as (E & _). unfold after. cbn. split; [reflexivity|]. destruct (Z.eqb_spec (Z.of_nat k) 0) as [->|]; lia. Qed.
Lemma fail_read e sk sk2 : fs (Z.of_nat k) = (Some e, sk, sk2) -> 0 < e ->
  exists p' b', getnextlinelength_f (k + S fuel) fs fin p b = Ret (-1, p', b') /\ zlen b' = 1024 /\ at_rest p' r /\ fpos p' = fpos p + 1024 * Z.of_nat k /\ foff p' = fpos p'.
Proof using All.
  intros E He. destruct to_piece as (b' & Lb' & AR & T). unfold getnextlinelength_f. rewrite T. cbn [nextlen_loop_f]. rewrite E. unfold readline, readline_userbuf. destruct AR as (FD & AR). replace (ffd _ =? 0) with false by lia. cbn [bind].
  replace (e =? -3) with false by lia. cbn [bind]. replace (e =? 0) with false by lia. cbn [negb]. destruct after_pos as [P1 P2]. do 2 eexists. split; [reflexivity|]. split; [exact Lb'|]. split; [split; [exact FD|exact AR]|]. lia.
Qed.
Lemma fail_seek e sk2 : fs (Z.of_nat k) = (None, Some e, sk2) -> 0 < e -> In 10 (ztake 1024 r) \/ 1024 <= zlen r ->
  exists p' b', getnextlinelength_f (k + S fuel) fs fin p b = Ret (-1, p', b') /\ foff p' = fpos p + 1024 * Z.of_nat k + Z.min 1024 (zlen r).
Proof using All.
  intros E He Hq. destruct to_piece as (b' & Lb' & AR & T). unfold getnextlinelength_f. rewrite T. cbn [nextlen_loop_f]. rewrite E. unfold readline.
  set (q := after p (Z.of_nat k)) in *. pose proof AR as (FD & _ & (a & Ea & Eo) & _). pose proof (at_rest_off _ _ _ Ea Eo) as D.
  assert (X : exists rr q' bb, readline_userbuf None None q b' 1024 = Ret (rr, q', bb)).
  { unfold readline_userbuf, sys_read. replace (ffd q =? 0) with false by lia. rewrite D. set (dt := ztake 1024 r). assert (Ld : zlen dt <= 1024) by (unfold dt, ztake, zlen; pose proof (firstn_le_length (Z.to_nat 1024) r); lia).
    destruct (zsplit (zlen dt) b') as (u & v & Ev & Lu); [zpos; lia|]. rewrite Ev in *. change (u ++ v) with ([] ++ u ++ v). rewrite zwrites_at by (reflexivity || lia). cbn [bind app]. destruct (zlen dt =? 0); [eauto|].
    destruct (in_dec Z.eq_dec 10 dt) as [I|NI].
    - apply lf_split in I as (x & y & Ex & Nx). rewrite Ex. pose proof (find_lf_some x [] y v (Z.to_nat (zlen (x ++ 10 :: y))) Nx ltac:(unfold zlen; rewrite app_length; cbn; lia)) as G. cbn [app] in G. change (zlen (@nil Z)) with 0 in G. rewrite <- app_assoc. cbn [app]. rewrite G. cbn [bind]. rewrite zwrite_at by lia. cbn [bind seek_ret]. eauto.
    - pose proof (find_lf_none dt [] v NI) as G. cbn [app] in G. change (zlen (@nil Z)) with 0 in G. replace (Z.to_nat (zlen dt)) with (length dt) by (unfold zlen; lia). rewrite G. cbn [bind]. destruct (Z.ltb_spec (zlen dt) 1024) as [Q|Q]; [|cbn; eauto].
      destruct v as [|w v]; [rewrite app_nil_r in Lb'; lia|]. rewrite zwrite_at by lia. cbn [bind]. eauto. }
  destruct X as (rr & q' & bb & X). destruct (readline_seek_error e q b' 1024 rr q' bb ltac:(lia) X) as [Y _]. rewrite D in Y. rewrite Y.
  - cbn [bind]. replace (e =? -3) with false by lia. cbn [bind]. replace (e =? 0) with false by lia. cbn [negb]. do 2 eexists. split; [reflexivity|]. cbn [foff]. destruct after_pos as [_ P2]. fold q in P2. rewrite P2. unfold ztake, zlen. rewrite firstn_length. lia.
  - split; [exact FD|]. split; [|destruct Hq as [Hq|Hq]; [left; exact Hq|right; unfold ztake, zlen in *; rewrite firstn_length; lia]]. destruct r as [|x r']; [congruence|]. discriminate.
Qed.
Lemma fail_skip e : fs (Z.of_nat k) = (None, None, Some e) -> 1024 <= zlen r -> no_lf (ztake 1024 r) ->
  exists p' b', getnextlinelength_f (k + S fuel) fs fin p b = Ret (-1, p', b') /\ fpos p' = fpos p + 1024 * (Z.of_nat k + 1) /\ foff p' = fpos p + 1024 * Z.of_nat k.
Proof using All.
  intros E Lr NL. destruct to_piece as (b' & Lb' & AR & T). destruct pos_rest as (PE & B1 & B2). destruct after_pos as [P1 P2]. unfold getnextlinelength_f. rewrite T. cbn [nextlen_loop_f]. rewrite E. unfold readline. set (q := after p (Z.of_nat k)) in *.
  rewrite <- (ztake_zdrop 1024 r) in AR. assert (Lt : zlen (ztake 1024 r) = 1024) by (apply zlen_ztake; lia). pose proof (readline_long q _ _ b' [] 1024 AR NL Lt Lb' ltac:(lia)) as R. rewrite !app_nil_r in R. rewrite R. cbn [bind]. change (-3 =? -3) with true. cbn iota. cbn [bind fpos flen ffd fcont foff]. zpos.
  rewrite u64_id by lia. do 2 eexists. split; [reflexivity|]. cbn [fpos foff]. lia.
Qed.
(** the last piece: with LF *)
Lemma last_lf sk2 l r' : r = l ++ 10 :: r' -> no_lf l -> zlen l < 1024 -> fs (Z.of_nat k) = (None, None, sk2) ->
  exists p' b', getnextlinelength_f (k + S fuel) fs fin p b = Ret (match fin with None => zlen c + zlen l | Some _ => -1 end, p', b') /\ fpos p' = fpos p /\
    foff p' = match fin with None => fpos p | Some _ => fpos p + zlen c + zlen l + 1 end.
Proof using All.
  intros Er NL Ll E. destruct to_piece as (b' & Lb' & AR & T). destruct pos_rest as (PE & B1 & B2). destruct after_pos as [P1 P2]. rewrite Er in AR, B2. unfold getnextlinelength_f. rewrite T. cbn [nextlen_loop_f]. rewrite E. unfold readline. set (q := after p (Z.of_nat k)) in *.
  destruct (readline_lf q l r' b' [] 1024 AR NL Lb' Ll) as (p1 & b1 & R & L1 & FL & _ & _ & FP & FO & _). rewrite !app_nil_r in R. rewrite R. cbn [bind]. change (0 =? -3) with false. cbn iota. cbn [bind]. change (negb (0 =? 0)) with false. cbn iota. revert B2. rewrite zlen_app, zlen_cons. zpos. intros B2.
  unfold set_off. cbn [fpos flen ffd fcont foff]. rewrite ?FL, ?Lc, ?(u64_id (1024 * Z.of_nat k + zlen l)) by lia. destruct fin; do 2 eexists; (split; [reflexivity|]); cbn [fpos foff flen]; lia.
Qed.
Lemma last_end sk sk2 : no_lf r -> zlen r < 1024 -> fs (Z.of_nat k) = (None, sk, sk2) ->
  exists p' b', getnextlinelength_f (k + S fuel) fs fin p b = Ret (match fin with None => zlen c + zlen r | Some _ => -1 end, p', b') /\ fpos p' = fpos p /\
    (fin = None -> foff p' = fpos p).
Proof using All.
  intros NL Ll E. destruct to_piece as (b' & Lb' & AR & T). destruct pos_rest as (PE & B1 & B2). destruct after_pos as [P1 P2]. unfold getnextlinelength_f. rewrite T. cbn [nextlen_loop_f]. rewrite E. unfold readline. set (q := after p (Z.of_nat k)) in *. zpos.
  destruct (readline_last q r b' [] 1024 AR Nr NL Lb' Ll) as (p1 & b1 & R & L1 & FL & _). rewrite !app_nil_r in R.
  assert (R' : readline_userbuf None sk q b' 1024 = Ret (0, p1, b1)).
  { destruct sk as [e|]; [|exact R]. destruct (readline_seek_error e q b' 1024 _ _ _ ltac:(lia) R) as [_ Y]. apply Y. right. right. pose proof AR as (_ & _ & (a & Ea & Eo) & _). rewrite (at_rest_off _ _ _ Ea Eo). rewrite ztake_all by lia. split; [exact NL|lia]. }
  rewrite R'. cbn [bind]. change (0 =? -3) with false. cbn iota. cbn [bind]. change (negb (0 =? 0)) with false. cbn iota.
  unfold set_off. cbn [fpos flen ffd fcont foff]. rewrite ?FL, ?Lc, ?(u64_id (1024 * Z.of_nat k + zlen r)) by lia. destruct fin; do 2 eexists; (split; [reflexivity|]); cbn [fpos foff flen]; split; try discriminate; auto; lia.
Qed.
End Fail.
