(** Proofs about ipv4 text. *)
From Verif Require Import Base Bits Cstr S_num L_num M_num P_num M_ip S_ip.
Ltac Zify.zify_post_hook ::= Z.div_mod_to_equations.

Lemma digit_char10 d : 0 <= d < 10 -> digit_char false d = d + 48.
Proof. intros. unfold digit_char. replace (d <? 10) with true by lia. lia. Qed.

(** ---------- stringfromipv4 ---------- *)
Lemma sfip_byte_ok b pre f suf o : byte b -> zlen f = 4 -> o = zlen pre ->
  exists s f', is_decimal b s /\ 1 <= zlen s <= 3 /\ zlen f' = 4 - (zlen s + 1) /\
    f' ++ suf = zdrop (zlen s + 1) (f ++ suf) /\
    sfip_byte b (pre ++ f ++ suf) o = Ret (pre ++ s ++ 46 :: f' ++ suf, o + zlen s + 1).
Proof.
  intros Hb Hf ->. unfold byte in Hb.
  destruct f as [|f0 [|f1 [|f2 [|f3 [|]]]]]; cbn in Hf; try lia. unfold sfip_byte.
  destruct (Z_lt_le_dec b 10); [|destruct (Z_lt_le_dec b 100)].
  - exists [b + 48], [f2; f3]. split.
    { exists [b]. split; [|replace (b <? 0) with false by lia; cbn [sign_str map app]; now rewrite digit_char10 by lia].
      rewrite Z.abs_eq by lia. split; [repeat constructor; lia|]. split; [cbn; lia|].
      destruct (Z.eq_dec b 0) as [->|]; [left; reflexivity|right; exists b, []; auto]. }
    split; [cbn; lia|]. split; [reflexivity|]. split; [reflexivity|].
    replace (100 <=? b) with false by lia. replace (10 <=? b) with false by lia. cbn [bind app].
    rewrite zwrite_at by reflexivity. cbn [bind]. rewrite zwrite_seq1 by lia. cbn [bind]. tup.
  - exists [b / 10 + 48; b mod 10 + 48], [f3]. split.
    { exists [b / 10; b mod 10]. split; [|replace (b <? 0) with false by lia; cbn [sign_str map app]; now rewrite !digit_char10 by lia].
      rewrite Z.abs_eq by lia. split; [repeat constructor; lia|]. split; [cbn; lia|].
      right. exists (b / 10), [b mod 10]. split; [reflexivity|lia]. }
    split; [cbn; lia|]. split; [reflexivity|]. split; [reflexivity|].
    replace (100 <=? b) with false by lia. replace (10 <=? b) with true by lia. cbn [bind app].
    rewrite zwrite_at by reflexivity. cbn [bind]. rewrite zwrite_seq1 by lia. cbn [bind].
    change (pre ++ ?x :: ?y :: ?t) with (pre ++ [x] ++ y :: t) at 1. rewrite app_assoc, zwrite_seq1 by (zl; lia). cbn [bind].
    rewrite <- app_assoc. cbn [app]. tup.
  - exists [b / 100 + 48; b mod 100 / 10 + 48; b mod 100 mod 10 + 48], []. split.
    { exists [b / 100; b mod 100 / 10; b mod 100 mod 10]. split; [|replace (b <? 0) with false by lia; cbn [sign_str map app]; now rewrite !digit_char10 by lia].
      rewrite Z.abs_eq by lia. split; [repeat constructor; lia|]. split; [cbn; lia|].
      right. exists (b / 100), [b mod 100 / 10; b mod 100 mod 10]. split; [reflexivity|lia]. }
    split; [cbn; lia|]. split; [reflexivity|]. split; [reflexivity|].
    replace (100 <=? b) with true by lia. replace (10 <=? b) with true by lia. cbn [bind app].
    assert ((if 200 <=? b then 50 else 49) = b / 100 + 48) as -> by (destruct (200 <=? b) eqn:?; lia).
    rewrite zwrite_at by reflexivity. cbn [bind]. rewrite zwrite_seq1 by lia. cbn [bind].
    change (pre ++ ?x :: ?y :: ?t) with (pre ++ [x] ++ y :: t) at 1. rewrite app_assoc, zwrite_seq1 by (zl; lia). cbn [bind].
    rewrite <- app_assoc. cbn [app].
    change (pre ++ ?x :: ?y :: ?t) with (pre ++ [x; y] ++ t) at 1. rewrite app_assoc, zwrite_seq1 by (zl; lia). cbn [bind].
    rewrite <- app_assoc. cbn [app]. tup.
Qed.

Lemma sfip_loop_ok : forall (k : nat) bs ipre irest pre f suf, zlen bs = Z.of_nat k -> bytes bs -> (0 < k)%nat ->
  zlen f = 4 * Z.of_nat k ->
  exists s f', dotted bs s /\ zlen s + 1 + zlen f' = zlen f /\
    f' ++ suf = zdrop (zlen s + 1) (f ++ suf) /\
    sfip_loop k (ipre ++ bs ++ irest) (zlen ipre) (pre ++ f ++ suf) (zlen pre) =
    Ret (pre ++ s ++ 46 :: f' ++ suf, zlen pre + zlen s + 1).
Proof.
  induction k as [|k IH]; intros bs ipre irest pre f suf HL HB Hk Hf; [lia|].
  destruct bs as [|b bs]; [cbn in HL; lia|]. apply bytes_cons in HB as [Hb HB]. cbn [sfip_loop app].
  rewrite zread_at by reflexivity. cbn [bind].
  destruct (zsplit 4 f) as [f4 [fr [-> Hf4]]]; [lia|]. rewrite <- (app_assoc f4).
  destruct (sfip_byte_ok b pre f4 (fr ++ suf) (zlen pre) Hb Hf4 eq_refl) as [s1 [f1 [D1 [L1 [L2 [E1 ->]]]]]]. cbn [bind].
  zl. destruct k as [|k].
  - assert (bs = []) as -> by (apply zlen_0; lia). exists s1, (f1 ++ fr). cbn [sfip_loop]. rewrite <- !app_assoc.
    split; [now constructor|]. split; [zl; lia|]. split; [now rewrite <- E1|]. tup.
  - destruct (IH bs (ipre ++ [b]) irest (pre ++ s1 ++ [46]) (f1 ++ ztake (4 * Z.of_nat (S k) - zlen f1) fr) (zdrop (4 * Z.of_nat (S k) - zlen f1) fr ++ suf))
      as [s2 [f2 [D2 [M2 [E2 R2]]]]]; [lia|assumption|lia| |].
    { zl. rewrite zlen_ztake; lia. }
    rewrite <- !app_assoc in R2. cbn [app] in R2. rewrite (app_assoc (ztake _ _) (zdrop _ _)), ztake_zdrop in R2.
    zl. replace (zlen ipre + (1 + 0)) with (zlen ipre + 1) in R2 by lia.
    replace (zlen pre + (zlen s1 + (1 + 0))) with (zlen pre + zlen s1 + 1) in R2 by lia. rewrite R2.
    exists (s1 ++ 46 :: s2), (f2 ++ zdrop (4 * Z.of_nat (S k) - zlen f1) fr).
    split; [now constructor|]. rewrite <- !app_assoc. cbn [app]. split.
    + zl. rewrite zlen_zdrop by lia. rewrite zlen_ztake in M2 by lia. lia.
    + split; [|tup; zl; lia]. zl.
      replace (zlen s1 + (1 + zlen s2) + 1) with (zlen s2 + 1 + (zlen s1 + 1)) by lia. zpos. rewrite <- zdrop_zdrop by lia.
      rewrite <- E1, E2, <- app_assoc. do 2 f_equal. now rewrite app_assoc, ztake_zdrop.
Qed.

Lemma stringfromipv4_ok bs rest buf : zlen bs = 4 -> bytes bs -> 16 <= zlen buf ->
  exists s, dotted bs s /\ zlen s <= 15 /\ stringfromipv4 (bs ++ rest) buf = Ret (s ++ 0 :: zdrop (zlen s + 1) buf).
Proof.
  intros HL HB Hbuf. destruct (zsplit 16 buf) as [f [suf [-> Hf]]]; [lia|].
  destruct (sfip_loop_ok 4 bs [] rest [] f suf HL HB) as [s [f' [D [L [E R]]]]]; [lia|lia|].
  exists s. split; [assumption|]. zpos. split; [lia|]. unfold stringfromipv4. cbn [app] in R. change (zlen []) with 0 in R.
  rewrite R. cbn [bind]. rewrite zwrite_at by lia. now rewrite E.
Qed.

(** ---------- ipv4fromstring ---------- *)
(** fields separated by dots, then the delimiter e and the rest *)
Fixpoint fields_text (fs : list (list Z)) (e : Z) (rest : list Z) : list Z :=
  match fs with
  | [] => rest
  | [ds] => map (digit_char false) ds ++ e :: rest
  | ds :: fs => map (digit_char false) ds ++ 46 :: fields_text fs e rest
  end.

Lemma ipfs_scan : forall ds fuel pre rest start out4 k, digits_ok 10 ds -> k < 4 ->
  ipfs_loop (length ds + fuel) (pre ++ map (digit_char false) ds ++ rest) (zlen pre) start out4 k =
  ipfs_loop fuel (pre ++ map (digit_char false) ds ++ rest) (zlen pre + zlen ds) start out4 k.
Proof.
  induction ds as [|d ds IH]; intros fuel pre rest start out4 k HD Hk.
  - cbn [length map app Nat.add]. change (zlen []) with 0. now rewrite Z.add_0_r.
  - apply Forall_cons_iff in HD as [Hd HD]. cbn [length map app Nat.add ipfs_loop]. replace (k <? 4) with true by lia.
    rewrite zread_at by reflexivity. cbn [bind]. rewrite digit_char10 by lia.
    replace ((d + 48 =? 46) || (d + 48 =? 0)) with false by lia. cbn [bind]. replace (d + 48 =? 0) with false by lia. cbn [andb].
    specialize (IH fuel (pre ++ [d + 48]) rest start out4 k HD Hk). rewrite <- app_assoc in IH. cbn [app] in IH.
    zl. replace (zlen pre + (1 + 0)) with (zlen pre + 1) in IH by lia. rewrite IH. f_equal. lia.
Qed.

Lemma field_value ds rest : digits_ok 10 ds -> zlen ds <= 18 ->
  exists v, strtoint (map (digit_char false) ds ++ rest) (zlen ds) = Ret v /\ u8 v = pos_value 10 ds mod 256.
Proof.
  intros HD HL. destruct ds as [|d ds].
  - exists 0. split; reflexivity.
  - destruct (strtoint_run false (d :: ds) rest) as [E _]; try assumption; [zl; zpos; lia|].
    cbn [sign_str app b2z] in E. rewrite Z.add_0_l in E. cbn [map app]. cbn [map app] in E. rewrite E.
    eexists. split; [reflexivity|]. unfold u8, s32. lia.
Qed.

Lemma ipfs_fields : forall fs pre e rest opre f osuf fuel, (e = 46 \/ e = 0) -> fs <> [] ->
  Forall (fun ds => digits_ok 10 ds /\ zlen ds <= 18) fs -> zlen opre + zlen fs = 4 -> zlen f = zlen fs ->
  zlen (fields_text fs e []) + 1 <= Z.of_nat fuel ->
  ipfs_loop fuel (pre ++ fields_text fs e rest) (zlen pre) (zlen pre) (opre ++ f ++ osuf) (zlen opre) =
  Ret (1, opre ++ map (fun ds => pos_value 10 ds mod 256) fs ++ osuf).
Proof.
  induction fs as [|ds fs IH]; intros pre e rest opre f osuf fuel He Hne HF HL Hf Hfuel; [congruence|].
  apply Forall_cons_iff in HF as [[HD H18] HF]. destruct f as [|f0 f]; [zl; zpos; lia|]. zl. zpos.
  set (c := if (zlen fs =? 0) then e else 46).
  set (tl := match fs with [] => rest | _ => fields_text fs e rest end).
  assert (Et : fields_text (ds :: fs) e rest = map (digit_char false) ds ++ c :: tl).
  { destruct fs; [reflexivity|]. unfold c, tl. zl. zpos. now replace (_ =? 0) with false by lia. }
  assert (Ef : zlen (fields_text (ds :: fs) e []) = zlen ds + 1 + (if zlen fs =? 0 then 0 else zlen (fields_text fs e []))).
  { destruct fs; cbn [fields_text]; zl; [cbn; lia|]. zpos. replace (1 + zlen fs =? 0) with false by lia. lia. }
  rewrite Et. assert (Hc : c = 46 \/ c = 0) by (unfold c; destruct (_ =? 0); auto).
  pose proof (zlen_nonneg (fields_text fs e [])) as Hnn.
  assert (exists fuel', fuel = (length ds + S fuel')%nat) as [fuel' ->].
  { exists (fuel - length ds - 1)%nat. unfold zlen in *. destruct (_ =? 0); lia. }
  rewrite ipfs_scan by (assumption || lia).
  cbn [ipfs_loop]. replace (zlen opre <? 4) with true by lia.
  rewrite app_assoc. rewrite zread_at by (zl; lia). rewrite <- app_assoc. cbn [bind].
  replace ((c =? 46) || (c =? 0)) with true by lia.
  rewrite zdrop_app_exact. replace (zlen pre + zlen ds - zlen pre) with (zlen ds) by lia.
  destruct (field_value ds (c :: tl) HD H18) as [v [Ev Eu]]. rewrite Ev. cbn [bind app].
  rewrite zwrite_at by reflexivity. cbn [bind]. rewrite Eu.
  destruct (zlen fs =? 0) eqn:E0.
  - assert (fs = []) as -> by (apply zlen_0; lia). change (zlen []) with 0 in *.
    replace (zlen opre + 1) with 4 by lia. change (4 <? 4) with false. rewrite andb_false_r.
    destruct fuel'; [unfold zlen in *; lia|]. cbn [ipfs_loop]. change (4 <? 4) with false. cbv iota.
    assert (f = []) as -> by (apply zlen_0; lia). cbn [map app]. tup.
  - replace (zlen opre + 1 <? 4) with true by lia. assert (c = 46) as Hc46 by (unfold c; reflexivity).
    rewrite Hc46. change ((46 =? 0) && true) with false. cbv iota.
    assert (tl = fields_text fs e rest) as Etl by (destruct fs; [cbn in E0; lia|reflexivity]). rewrite Etl.
    specialize (IH (pre ++ map (digit_char false) ds ++ [46]) e rest (opre ++ [pos_value 10 ds mod 256]) f osuf fuel' He).
    rewrite <- !app_assoc in IH. cbn [app] in IH. zl.
    replace (zlen pre + (zlen ds + (1 + 0))) with (zlen pre + zlen ds + 1) in IH by lia.
    replace (zlen opre + (1 + 0)) with (zlen opre + 1) in IH by lia. rewrite IH; try assumption; try lia.
    + reflexivity.
    + intros ->. cbn in E0. lia.
    + unfold zlen in *. lia.
Qed.

Lemma fields_len fs e rest : fs <> [] -> zlen (fields_text fs e rest) = zlen (fields_text fs e []) + zlen rest.
Proof.
  induction fs as [|ds [|d2 fs] IH]; intros Hne; [congruence| |].
  - cbn [fields_text]. zl. zlia.
  - cbn [fields_text] in *. zl. rewrite IH by congruence. lia.
Qed.

Lemma ipv4fromstring_ok a b c d e rest out4 : (e = 46 \/ e = 0) ->
  Forall (fun ds => digits_ok 10 ds /\ zlen ds <= 18) [a; b; c; d] -> 4 <= zlen out4 ->
  ipv4fromstring (map (digit_char false) a ++ 46 :: map (digit_char false) b ++ 46 :: map (digit_char false) c ++ 46 ::
                  map (digit_char false) d ++ e :: rest) out4 =
  Ret (1, map (fun ds => pos_value 10 ds mod 256) [a; b; c; d] ++ zdrop 4 out4).
Proof.
  intros He HF HL. destruct (zsplit 4 out4) as [f [osuf [-> Hf]]]; [lia|].
  pose proof (ipfs_fields [a; b; c; d] [] e rest [] f osuf) as H. unfold ipv4fromstring.
  change (map (digit_char false) a ++ 46 :: map (digit_char false) b ++ 46 :: map (digit_char false) c ++ 46 ::
                  map (digit_char false) d ++ e :: rest) with (fields_text [a; b; c; d] e rest).
  pose proof (fields_len [a; b; c; d] e rest ltac:(discriminate)) as HX.
  cbn [app] in H. change (zlen []) with 0 in H. rewrite H; try assumption; try reflexivity; try discriminate.
  - do 2 f_equal. f_equal. replace 4 with (zlen f) by lia. now rewrite zdrop_app_exact.
  - unfold zlen in *. lia.
Qed.

Lemma decimal_byte_inv b s : byte b -> is_decimal b s -> exists ds, digits_ok 10 ds /\ zlen ds <= 3 /\ 1 <= zlen ds /\
  s = map (digit_char false) ds /\ pos_value 10 ds = b.
Proof.
  intros Hb [ds [HR ->]]. unfold byte in Hb. rewrite Z.abs_eq in HR by lia. exists ds.
  destruct (digits_le 10 ds 3) as [L1 L2]; try lia; [exists b; split; [assumption|change (10 ^ 3) with 1000; lia]|].
  destruct HR as [HD [HV _]]. replace (b <? 0) with false by lia. auto.
Qed.
Lemma dotted4_inv bs s : zlen bs = 4 -> bytes bs -> dotted bs s -> exists a b c d,
  s = map (digit_char false) a ++ 46 :: map (digit_char false) b ++ 46 :: map (digit_char false) c ++ 46 :: map (digit_char false) d /\
  Forall (fun ds => digits_ok 10 ds /\ 1 <= zlen ds <= 3) [a; b; c; d] /\ map (pos_value 10) [a; b; c; d] = bs.
Proof.
  intros HL HB HD. destruct bs as [|b0 [|b1 [|b2 [|b3 [|]]]]]; try (exfalso; clear HB HD; zl; zpos; lia).
  apply bytes_cons in HB as [B0 HB]. apply bytes_cons in HB as [B1 HB]. apply bytes_cons in HB as [B2 HB]. apply bytes_cons in HB as [B3 _].
  inversion HD as [|? s0 ? t0 D0 E0]; subst. inversion E0 as [|? s1 ? t1 D1 E1]; subst.
  inversion E1 as [|? s2 ? t2 D2 E2]; subst. inversion E2 as [? s3 D3|? ? ? ? ? E3]; subst; [|inversion E3].
  destruct (decimal_byte_inv _ _ B0 D0) as [a [? [? [? [-> ?]]]]]. destruct (decimal_byte_inv _ _ B1 D1) as [b [? [? [? [-> ?]]]]].
  destruct (decimal_byte_inv _ _ B2 D2) as [c [? [? [? [-> ?]]]]]. destruct (decimal_byte_inv _ _ B3 D3) as [d [? [? [? [-> ?]]]]].
  exists a, b, c, d. split; [reflexivity|]. split; [repeat (constructor; [split; [assumption|lia]|]); constructor|].
  cbn [map]. congruence.
Qed.

Lemma ipv4_roundtrip bs rest buf out4 : zlen bs = 4 -> bytes bs -> 16 <= zlen buf -> 4 <= zlen out4 ->
  exists buf', stringfromipv4 (bs ++ rest) buf = Ret buf' /\ ipv4fromstring buf' out4 = Ret (1, bs ++ zdrop 4 out4).
Proof.
  intros HL HB H16 H4. destruct (stringfromipv4_ok bs rest buf HL HB H16) as [s [HD [_ HE]]].
  eexists. split; [exact HE|]. destruct (dotted4_inv bs s HL HB HD) as [a [b [c [d [-> [HF HV]]]]]].
  repeat (rewrite <- app_assoc; cbn [app]). rewrite ipv4fromstring_ok; [|auto| |assumption].
  - do 2 f_equal. f_equal. rewrite <- HV in HB |- *. clear - HB. induction [a; b; c; d] as [|x xs IH]; [reflexivity|].
    cbn [map] in *. apply bytes_cons in HB as [Hx HB]. rewrite IH by assumption. f_equal. unfold byte in Hx. apply Z.mod_small. lia.
  - eapply Forall_impl; [|exact HF]. cbn. intros ds [? ?]. split; [assumption|lia].
Qed.

(** ---------- isnumericipv4 ---------- *)
Fixpoint acc (n d : Z) (w : bool) (t : list Z) : bool :=
  match t with
  | [] => (d =? 3) && (4 <=? n) && (n <=? 12)
  | c :: t => if c =? 46 then negb ((n =? 0) || w) && acc n (d + 1) true t
              else ((48 <=? c) && (c <=? 57)) && acc (n + 1) d false t
  end.
Lemma isnum_loop_acc t : forall fuel pre rest n d w, nz t -> (length t < fuel)%nat ->
  isnum_loop fuel (pre ++ t ++ 0 :: rest) (zlen pre) n d (b2z w) = Ret (b2z (acc n d w t)).
Proof.
  induction t as [|c t IH]; intros fuel pre rest n d w Hnz Hf; (destruct fuel as [|fuel]; [cbn in Hf; lia|]);
    cbn [app isnum_loop acc]; rewrite zread_at by reflexivity; cbn [bind].
  - change (0 =? 0) with true. cbv iota. destruct (_ && _); reflexivity.
  - apply nz_cons in Hnz as [Hc Hnz]. cbn [length] in Hf. replace (c =? 0) with false by lia.
    assert (IH' : forall n d w, isnum_loop fuel (pre ++ c :: t ++ 0 :: rest) (zlen pre + 1) n d (b2z w) = Ret (b2z (acc n d w t))).
    { intros. specialize (IH fuel (pre ++ [c]) rest n0 d0 w0 Hnz ltac:(lia)). rewrite <- app_assoc in IH. cbn [app] in IH.
      zl. now replace (zlen pre + (1 + 0)) with (zlen pre + 1) in IH by lia. }
    destruct (c =? 46).
    + rewrite (IH' n (d + 1) true : isnum_loop fuel _ _ n (d + 1) 1 = _). destruct w; cbn [b2z negb Z.eqb]; destruct (n =? 0); reflexivity.
    + rewrite (IH' (n + 1) d false : isnum_loop fuel _ _ (n + 1) d 0 = _). destruct (_ && _); reflexivity.
Qed.
Lemma cnt_cons P c t : count P (c :: t) = (if P c then 1 else 0) + count P t.
Proof. unfold count. cbn [filter]. destruct (P c); zl; lia. Qed.
Lemma acc_spec t : forall n d w, 0 <= n ->
  acc n d w t = true <->
  Forall (fun c => is_digit c \/ c = 46) t /\ d + dot_count t = 3 /\ 4 <= n + digit_count t <= 12 /\
  ((n = 0 \/ w = true) -> forall q, t <> 46 :: q) /\ (forall p q, t <> p ++ 46 :: 46 :: q).
Proof.
  induction t as [|c t IH]; intros n d w Hn; cbn [acc].
  - split.
    + intros H. split; [constructor|]. change (dot_count []) with 0. change (digit_count []) with 0.
      split; [lia|]. split; [lia|]. split; [discriminate|]. intros p q. destruct p; discriminate.
    + change (dot_count []) with 0. change (digit_count []) with 0. intros (_ & ? & ? & _). lia.
  - unfold dot_count, digit_count in *. rewrite !cnt_cons. destruct (c =? 46) eqn:E.
    + apply Z.eqb_eq in E. subst c. change ((48 <=? 46) && (46 <=? 57)) with false. cbv iota.
      rewrite andb_true_iff, IH by assumption. split.
      * intros [Hw (H1 & H2 & H3 & H4 & H5)]. split; [constructor; auto|]. split; [lia|]. split; [lia|].
        split; [intros Hx; exfalso; destruct w; lia|].
        intros p q. destruct p as [|x p]; cbn [app].
        -- intros [=]. subst. eapply H4; auto.
        -- intros [=]. subst. eapply H5; eauto.
      * intros (H1 & H2 & H3 & H4 & H5). apply Forall_cons_iff in H1 as [_ H1]. split.
        -- destruct (Z.eq_dec n 0) as [->|]; [exfalso; eapply H4; eauto|]. destruct w; [exfalso; eapply H4; eauto|]. lia.
        -- split; [assumption|]. split; [lia|]. split; [lia|]. split.
           ++ intros _ q ->. apply (H5 [] q). reflexivity.
           ++ intros p q ->. apply (H5 (46 :: p) q). reflexivity.
    + rewrite andb_true_iff, IH by lia. split.
      * intros [Hd (H1 & H2 & H3 & H4 & H5)]. rewrite Hd. split; [constructor; [left; unfold is_digit; lia|assumption]|].
        split; [lia|]. split; [lia|]. split; [intros _ q [=]; lia|].
        intros p q. destruct p as [|x p]; cbn [app]; intros [=]; [lia|]. subst. eapply H5; eauto.
      * intros (H1 & H2 & H3 & H4 & H5). apply Forall_cons_iff in H1 as [Hc H1]. assert (Hd : (48 <=? c) && (c <=? 57) = true) by (unfold is_digit in Hc; lia).
        rewrite Hd in *. split; [reflexivity|]. split; [assumption|]. split; [lia|]. split; [lia|]. split; [intros [?|?]; [lia|discriminate]|].
        intros p q ->. apply (H5 (c :: p) q). reflexivity.
Qed.
Lemma isnumericipv4_exact s rest : nz s ->
  exists r, isnumericipv4 (s ++ 0 :: rest) = Ret r /\ (r = 1 /\ loose_quad s \/ r = 0 /\ ~ loose_quad s).
Proof.
  intros Hnz. unfold isnumericipv4. pose proof (isnum_loop_acc s (S (length (s ++ 0 :: rest))) [] rest 0 0 false Hnz) as H.
  cbn [app b2z] in H. change (zlen []) with 0 in H. rewrite H by (rewrite app_length; lia).
  eexists. split; [reflexivity|]. pose proof (acc_spec s 0 0 false ltac:(lia)) as HS. rewrite !Z.add_0_l in HS.
  assert (HL : acc 0 0 false s = true <-> loose_quad s).
  { rewrite HS. unfold loose_quad. intuition eauto. }
  destruct (acc 0 0 false s); cbn [b2z]; [left; tauto|right]. split; [reflexivity|]. intros HX. apply HL in HX. discriminate.
Qed.
Lemma acc_group g : forall n d w t, 0 <= n -> Forall is_digit g -> g <> [] -> acc n d w (g ++ t) = acc (n + zlen g) d false t.
Proof.
  induction g as [|c g IH]; intros n d w t Hn HF Hne; [congruence|]. apply Forall_cons_iff in HF as [Hc HF]. unfold is_digit in Hc.
  cbn [app acc]. replace (c =? 46) with false by lia. replace ((48 <=? c) && (c <=? 57)) with true by lia. cbn [andb].
  destruct g as [|c2 g].
  - cbn [app]. f_equal.
  - rewrite IH by (assumption || lia || discriminate). f_equal. zl. lia.
Qed.
Lemma strict_is_loose s : strict_quad s -> loose_quad s.
Proof.
  intros (a & b & c & d & -> & HF). pose proof (acc_spec (a ++ 46 :: b ++ 46 :: c ++ 46 :: d) 0 0 false ltac:(lia)) as HS.
  rewrite !Z.add_0_l in HS. assert (HA : acc 0 0 false (a ++ 46 :: b ++ 46 :: c ++ 46 :: d) = true).
  { rewrite Forall_forall in HF.
    assert (HG : forall g, In g [a; b; c; d] -> Forall is_digit g /\ 1 <= zlen g <= 3 /\ g <> []).
    { intros g Hg. destruct (HF g Hg). split; [assumption|]. split; [assumption|]. intros ->. cbn in *. lia. }
    destruct (HG a) as [A1 [A2 A3]]; [cbn; auto|]. destruct (HG b) as [B1 [B2 B3]]; [cbn; auto|].
    destruct (HG c) as [C1 [C2 C3]]; [cbn; auto|]. destruct (HG d) as [D1 [D2 D3]]; [cbn; auto|].
    rewrite acc_group by (assumption || lia). cbn [acc]. change (46 =? 46) with true. cbv iota.
    rewrite acc_group by (assumption || lia). cbn [acc]. change (46 =? 46) with true. cbv iota.
    rewrite acc_group by (assumption || lia). cbn [acc]. change (46 =? 46) with true. cbv iota.
    rewrite <- (app_nil_r d). rewrite acc_group by (assumption || lia). cbn [acc]. lia. }
  apply HS in HA. destruct HA as (H1 & H2 & H3 & H4 & H5). repeat split; auto; try apply H3.
Qed.
Lemma strict_nz s : strict_quad s -> nz s.
Proof.
  intros H. apply strict_is_loose in H. destruct H as [H _]. eapply Forall_impl; [|exact H]. cbn. unfold is_digit. intros c [?|?]; lia.
Qed.
Lemma isnumericipv4_strict s rest : strict_quad s -> isnumericipv4 (s ++ 0 :: rest) = Ret 1.
Proof.
  intros H. destruct (isnumericipv4_exact s rest (strict_nz s H)) as [r [E [[-> _]|[_ HN]]]]; [assumption|].
  exfalso. apply HN. now apply strict_is_loose.
Qed.
Lemma dotted_strict bs s : zlen bs = 4 -> bytes bs -> dotted bs s -> strict_quad s.
Proof.
  intros HL HB HD. destruct (dotted4_inv bs s HL HB HD) as [a [b [c [d [-> [HF _]]]]]].
  exists (map (digit_char false) a), (map (digit_char false) b), (map (digit_char false) c), (map (digit_char false) d).
  split; [reflexivity|]. assert (HG : forall ds, digits_ok 10 ds /\ 1 <= zlen ds <= 3 -> Forall is_digit (map (digit_char false) ds) /\ 1 <= zlen (map (digit_char false) ds) <= 3).
  { intros ds [H1 H2]. zl. split; [|assumption]. induction H1; cbn [map]; constructor; auto.
    - rewrite digit_char10 by assumption. unfold is_digit. lia.
    - clear - H1. induction H1; cbn [map]; constructor; auto. rewrite digit_char10 by assumption. unfold is_digit. lia. }
  change [map (digit_char false) a; map (digit_char false) b; map (digit_char false) c; map (digit_char false) d] with (map (map (digit_char false)) [a; b; c; d]).
  apply Forall_map. eapply Forall_impl; [|exact HF]. exact HG.
Qed.
Lemma isnumericipv4_canonical bs rest buf : zlen bs = 4 -> bytes bs -> 16 <= zlen buf ->
  exists buf', stringfromipv4 (bs ++ rest) buf = Ret buf' /\ isnumericipv4 buf' = Ret 1.
Proof.
  intros HL HB H16. destruct (stringfromipv4_ok bs rest buf HL HB H16) as [s [HD [_ HE]]].
  eexists. split; [exact HE|]. apply isnumericipv4_strict. now apply (dotted_strict bs).
Qed.

(** a decidable necessary condition for strict_quad: groups between dots *)
Fixpoint groups (cur : Z) (s : list Z) : list Z :=
  match s with [] => [cur] | c :: s => if c =? 46 then cur :: groups 0 s else groups (cur + 1) s end.
Lemma groups_app g : forall cur t, Forall is_digit g -> groups cur (g ++ t) = groups (cur + zlen g) t.
Proof.
  induction g as [|c g IH]; intros cur t HF; [cbn [app]; change (zlen []) with 0; now rewrite Z.add_0_r|].
  apply Forall_cons_iff in HF as [Hc HF]. unfold is_digit in Hc. cbn [app groups]. replace (c =? 46) with false by lia.
  rewrite IH by assumption. f_equal. zl. lia.
Qed.
Lemma strict_groups s : strict_quad s -> Forall (fun n => 1 <= n <= 3) (groups 0 s).
Proof.
  intros (a & b & c & d & -> & HF). repeat (apply Forall_cons_iff in HF as [[? ?] HF]).
  repeat (rewrite groups_app by assumption; cbn [groups]; change (46 =? 46) with true; cbv iota).
  rewrite <- (app_nil_r d), groups_app by assumption. cbn [groups]. rewrite !Z.add_0_l. repeat (constructor; [assumption|]). constructor.
Qed.
Lemma not_only_quads : exists s1 s2, isnumericipv4 (s1 ++ [0]) = Ret 1 /\ ~ strict_quad s1 /\
                isnumericipv4 (s2 ++ [0]) = Ret 1 /\ ~ strict_quad s2 /\ zlen s1 = 7 /\ zlen s2 = 13.
Proof.
  exists [49; 50; 46; 51; 46; 52; 46], [49; 50; 51; 52; 53; 54; 55; 46; 49; 46; 49; 46; 49].
  split; [reflexivity|]. split; [intros H; apply strict_groups in H; cbn in H; repeat (apply Forall_cons_iff in H as [? H]); lia|].
  split; [reflexivity|]. split; [intros H; apply strict_groups in H; cbn in H; repeat (apply Forall_cons_iff in H as [? H]); lia|].
  split; reflexivity.
Qed.
