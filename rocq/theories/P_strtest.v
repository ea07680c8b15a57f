(** Proofs for M_strtest. *)
From Coq Require Import String Ascii.
From Verif Require Import Base Bits Cstr M_base64 S_base64 P_base64 M_ip M_stringptr D_stringptr S_stringptr P_stringptr M_filelib S_filelib P_filelib M_num S_num M_format S_format P_format M_spl P_spl M_shatest P_shatest M_hashtest P_hashtest M_strtest T_format.

Ltac open l := destruct l as [|? l]; [discriminate|].
Lemma zlen_nat {A} (l : list A) n : zlen l = Z.of_nat n -> List.length l = n.
Proof. unfold zlen. lia. Qed.

Lemma In_firstn {A} n (l : list A) x : In x (firstn n l) -> In x l.
Proof. intros H. rewrite <- (firstn_skipn n l). apply in_or_app. now left. Qed.

(** ** base64_test *)
Lemma b64_test_ok b64 raw : zlen b64 = 65 -> zlen raw = 49 -> base64_test b64 raw = Ret (repeat true 43).
Proof.
  intros L1 L2. apply (zlen_nat _ 65) in L1. apply (zlen_nat _ 49) in L2.
  do 65 open b64. destruct b64; [|discriminate]. do 49 open raw. destruct raw; [|discriminate]. vm_compute. reflexivity.
Qed.
Lemma cstreq_same a q : nz a -> cstreq (a ++ 0 :: q) (a ++ [0]) = Ret true.
Proof. intros N. destruct (cstreq_ok a a q [] N N) as (e & E & H). rewrite E. f_equal. now apply H. Qed.
Lemma zeros_first n (l : list Z) : 0 <= n -> exists q, zrepeat 0 n ++ 0 :: l = 0 :: q.
Proof. intros H. destruct (Z.to_nat n) as [|k] eqn:E; unfold zrepeat; rewrite E; cbn; eauto. Qed.
Lemma b64_round_ok b raw x : bytes x -> nz x -> zlen x <= 48 -> zlen b = 65 -> zlen raw = 49 ->
  b64_run b raw (BEnc x :: back x (S_base64.b64 x)) = Ret [true; true; true].
Proof.
  intros B N Lx Lb Lr. pose proof (zlen_nonneg x).
  assert (X : (zlen x + 2) / 3 <= 16) by (apply Z.lt_succ_r, Z.div_lt_upper_bound; lia).
  unfold back. cbn [b64_run]. rewrite base64enc_ok by (assumption || lia). rewrite bind_ret.
  destruct (b64_nonzero x B) as [B' N']. rewrite cstreq_same by exact N'. rewrite bind_ret.
  pose proof (zlen_b64 x B) as E. rewrite roundtrip; [|exact B|lia| |lia].
  2:{ rewrite E, Z.div_mul by lia. lia. }
  rewrite bind_ret. destruct (zeros_first (pad_len (zlen x)) (zdrop (zlen (S_base64.b64 x) / 4 * 3 + 1) raw)) as (q & Q); [unfold pad_len; apply Z.mod_pos_bound; lia|].
  rewrite Q, cstreq_same by exact N. rewrite !bind_ret. now rewrite Z.eqb_refl.
Qed.

(** ** ipv4fromstring_test *)
Lemma ip_test_ok ip : zlen ip = 4 -> ipv4fromstring_test ip = Ret [true; true].
Proof. intros L. apply (zlen_nat _ 4) in L. do 4 open ip. destruct ip; [|discriminate]. vm_compute. reflexivity. Qed.

(** ** normalizepath_test *)
Definition is_some {A} (o : option A) : bool := match o with Some _ => true | None => false end.
Lemma resolve_sub : forall cs st st', Forall nz st -> Forall nz cs -> resolve st cs = Some st' -> Forall nz st'.
Proof.
  induction cs as [|c cs IH]; intros st st' Hs Hc R; cbn [resolve] in R; [now inversion R; subst|]. inversion Hc; subst.
  destruct (is c [] || is c [46]); [eauto|]. destruct (is c [46; 46]); [destruct st; [discriminate|]; inversion Hs; eauto|]. eapply IH; [|eassumption|eassumption]. now constructor.
Qed.
Lemma comps_nz t : nz t -> Forall nz (comps t).
Proof.
  induction t as [|c t IH]; intros N; [repeat constructor|]. inversion N; subst. cbn [comps]. destruct (c =? 47); [constructor; [constructor|auto]|].
  specialize (IH H2). destruct (comps t) as [|x l]; [repeat constructor; auto|]. inversion IH; subst. constructor; [constructor; auto|auto].
Qed.
Lemma join_nz : forall ps, Forall nz ps -> nz (S_stringptr.join [47] ps).
Proof.
  induction ps as [|p ps IH]; intros H; [constructor|]. inversion H; subst. destruct ps as [|q ps]; [exact H2|].
  change (nz (p ++ [47] ++ S_stringptr.join [47] (q :: ps))). apply Forall_app; split; [exact H2|]. constructor; [lia|]. now apply IH.
Qed.
Lemma normal_nz t r : nz t -> normal t = Some r -> nz r.
Proof.
  intros N E. destruct t as [|c t]; [discriminate|]. cbn [normal] in E. destruct (c =? 47); [|discriminate]. inversion N; subst.
  destruct (resolve [] (comps t)) as [st|] eqn:R; [|discriminate]. cbn in E. inversion E; subst. constructor; [lia|]. apply join_nz. apply Forall_rev. eapply resolve_sub; [|apply comps_nz|]; eauto.
Qed.
Lemma spl_holds s : zlen s < 2 ^ 62 -> holds (SPLITERAL s) s.
Proof. intros L. exists [], [0]. unfold holds_in, SPLITERAL. cbn [sb so sz app]. repeat split. rewrite zlen_app. change (zlen [0]) with 1. lia. Qed.
Lemma np_test_ok junk buf t : nz t -> bytes t -> zlen t < 4096 -> zlen buf = 4096 ->
  (let* t1 := stringptr_copy (Some junk) (SPLITERAL t) in np_test buf t1) = Ret (normal t).
Proof.
  intros N B L Lb. destruct (copy_ok junk _ _ (spl_holds t ltac:(lia))) as (r & E & hd & Lh & ->). rewrite E, bind_ret. unfold np_test. cbn [sz sb so].
  pose proof (normalizepath_ok (S (Z.to_nat (zlen t))) buf hd t [] N B ltac:(lia) ltac:(lia) ltac:(unfold zlen; lia)) as H. cbv zeta in H. rewrite Lh in H.
  destruct (normal t) as [s|] eqn:En.
  - destruct H as (k & H & _). rewrite H, bind_ret. cbn [sb so]. change (1 =? 0) with false. cbn iota. rewrite strlen_ok by (try (now apply (normal_nz t)); lia). rewrite bind_ret. rewrite <- Lh, zdrop_app_exact, ztake_app_exact. reflexivity.
  - rewrite H. reflexivity.
Qed.
Lemma np_run_ok buf : (forall k, zlen (buf k) = 4096) -> forall ps, Forall (fun p => nz (fst p) /\ bytes (fst p) /\ zlen (fst p) < 4096) ps ->
  forall mal k, (forall i, (k <= i < k + List.length ps)%nat -> mal i <> None) ->
  np_run mal buf k ps = Ret (map (fun p => (normal (fst p), Bool.eqb (snd p) (is_some (normal (fst p))))) ps).
Proof.
  intros Lb. induction ps as [|[p w] ps IH]; intros F mal k Hm; [reflexivity|]. inversion F as [|? ? (N & B & L) F']; subst. cbn [fst] in *. cbn [np_run map fst snd].
  destruct (mal k) as [junk|] eqn:E; [|exfalso; apply (Hm k); [cbn; lia|exact E]].
  pose proof (np_test_ok junk (buf k) p N B L (Lb k)) as H. destruct (stringptr_copy (Some junk) (SPLITERAL p)) as [t1| |]; [|discriminate|discriminate]. cbn [bind] in H |- *. rewrite H, bind_ret.
  rewrite (IH F' mal (S k)) by (intros i Hi; apply Hm; cbn; lia). reflexivity.
Qed.
Lemma np_run_none buf : (forall k, zlen (buf k) = 4096) -> forall ps, Forall (fun p => nz (fst p) /\ bytes (fst p) /\ zlen (fst p) < 4096) ps ->
  forall mal k, (exists i, (k <= i < k + List.length ps)%nat /\ mal i = None) -> np_run mal buf k ps = UB.
Proof.
  intros Lb. induction ps as [|[p w] ps IH]; intros F mal k (i & Hi & E); [cbn in Hi; lia|]. inversion F as [|? ? (N & B & L) F']; subst. cbn [fst] in *. cbn [np_run].
  destruct (mal k) as [junk|] eqn:Ek; [|reflexivity].
  pose proof (np_test_ok junk (buf k) p N B L (Lb k)) as H. destruct (stringptr_copy (Some junk) (SPLITERAL p)) as [t1| |]; [|discriminate|discriminate]. cbn [bind] in H |- *. rewrite H, bind_ret.
  rewrite (IH F' mal (S k)); [reflexivity|]. exists i. split; [|exact E]. assert (i <> k) by congruence. cbn in Hi. lia.
Qed.
Lemma np_paths_ok : Forall (fun p => nz (fst p) /\ bytes (fst p) /\ zlen (fst p) < 4096) np_paths.
Proof.
  assert (H : forallb (fun p => nzb (fst p) && okb (fst p) && (zlen (fst p) <? 4096)) np_paths = true) by (vm_compute; reflexivity).
  rewrite forallb_forall in H. apply Forall_forall. intros p Hp. specialize (H p Hp). apply andb_prop in H as [H H3]. apply andb_prop in H as [H1 H2].
  split; [now apply nzb_nz|]. split; [now apply okb_bytes|lia].
Qed.

(** ** numberToString_test *)
Definition nts_out : list (list Z) :=
  map lit ["-0000000000000001"; "-1"; "4294967295"; "18446744073709551615"; "-1"; "-00000000000000000001"; "4294967295"; "18446744073709551615";
           "0"; "0"; "00000000000000000000"; "0"; "0"; "0"; "00000000000000000000"; "00000000000000000000"; "0"; "0"; "000000000000000000ff"; "000000000000000000ff"]%string.
Lemma nts_test_ok b : zlen b = 32 -> numberToString_test b = Ret nts_out.
Proof. intros L. apply (zlen_nat _ 32) in L. do 32 open b. destruct b; [|discriminate]. vm_compute. reflexivity. Qed.

(** ** spformat_test *)
Definition sf_ok (n : Z) (fmt : list Z) (args : list arg) (want : option Z) (text : option (list Z)) : Prop :=
  forall c buf, zlen c = 32 -> zlen buf = 128 -> exists r buf', ulz_snprintf (Some buf) n (fmt ++ [0]) args c = Ret (r, Some buf') /\ zlen buf' = 128 /\
    match want with None => True | Some w => r = w end /\ match text with None => True | Some t => cstreq buf' (t ++ [0]) = Ret true end.
Definition sf0_ok (fmt : list Z) (args : list arg) (want : Z) : Prop := forall c, zlen c = 32 -> ulz_snprintf None 0 (fmt ++ [0]) args c = Ret (want, None).
Definition step_ok (s : fstep) : Prop :=
  match s with FBuf n fmt args want text => sf_ok n fmt args want text | FNull fmt args want => sf0_ok fmt args want | FHavoc b => zlen b = 128 end.
Definition asserts (s : fstep) : list bool := match s with FBuf _ _ _ (Some _) _ | FNull _ _ _ => [true] | _ => [] end.
Lemma sf_run_ok cbuf : (forall k, zlen (cbuf k) = 32) -> forall ss, Forall step_ok ss -> forall k buf, zlen buf = 128 -> sf_run cbuf k buf ss = Ret (concat (map asserts ss)).
Proof.
  intros Hc. induction ss as [|s ss IH]; intros F k buf Lb; [reflexivity|]. inversion F as [|? ? Hs F']; subst. destruct s as [n fmt args want text|fmt args want|b]; cbn [step_ok] in Hs; cbn [sf_run map concat asserts].
  - destruct (Hs (cbuf k) buf (Hc k) Lb) as (r & b' & E & L' & W & T). rewrite E, bind_ret. destruct text as [t|]; [rewrite T|]; rewrite bind_ret, (IH F' (S k) b' L'), bind_ret; (destruct want as [w|]; [rewrite W, Z.eqb_refl|]; reflexivity).
  - rewrite (Hs (cbuf k) (Hc k)), bind_ret, (IH F' (S k) buf Lb), bind_ret. now rewrite Z.eqb_refl.
  - now rewrite (IH F' k b Hs).
Qed.
(** the text does not depend on the buffer *)
Definition text_is (fmt : list Z) (args : list arg) (b : bool) (t : list Z) : Prop := forall c, zlen c = 32 -> text_run (fmt ++ [0]) args c = Ret (b, t).
Lemma sf0_of fmt args t : text_is fmt args false t -> sf0_ok fmt args (zlen t).
Proof. intros H c L. unfold ulz_snprintf. rewrite run_ok by exact I. now rewrite (H c L). Qed.
Lemma sf_of n fmt args t : 1 <= n <= 128 -> text_is fmt args false t -> nzb t = true -> sf_ok n fmt args (Some (zlen (ztake (n - 1) t))) (Some (ztake (n - 1) t)).
Proof.
  intros Hn H N c b L L'. apply nzb_nz in N. unfold ulz_snprintf. rewrite run_ok by lia. rewrite (H c L). cbv zeta. do 2 eexists. split; [reflexivity|].
  assert (zlen (ztake (n - 1) t) <= n - 1). { destruct (Z_le_dec (n - 1) (zlen t)); [rewrite zlen_ztake by lia; lia|rewrite ztake_all by lia; lia]. }
  pose proof (zlen_nonneg (ztake (n - 1) t)). split; [rewrite zlen_app, zlen_cons, zlen_zdrop by lia; lia|]. split; [reflexivity|]. apply cstreq_same. unfold ztake, nz. apply Forall_forall. intros x Hx. unfold nz in N. rewrite Forall_forall in N. apply N. eapply In_firstn; eassumption.
Qed.
Lemma sf_fail n fmt args t : 1 <= n <= 128 -> text_is fmt args true t -> sf_ok n fmt args (Some (-1)) None.
Proof.
  intros Hn H c b L L'. unfold ulz_snprintf. rewrite run_ok by lia. rewrite (H c L). cbv zeta. do 2 eexists. split; [reflexivity|].
  assert (zlen (ztake (n - 1) t) <= n - 1). { destruct (Z_le_dec (n - 1) (zlen t)); [rewrite zlen_ztake by lia; lia|rewrite ztake_all by lia; lia]. }
  pose proof (zlen_nonneg (ztake (n - 1) t)). split; [rewrite zlen_app, zlen_zdrop by lia; lia|]. split; [reflexivity|exact I].
Qed.
Ltac txt := let c := fresh in let L := fresh in intros c L; apply (zlen_nat _ 32) in L; do 32 open c; destruct c; [|discriminate]; vm_compute; reflexivity.
Definition baz := VStr (Some (clit "baz")).
Lemma t_f4 : text_is (lit "[%.4d] foo bar %s" ++ [10]) [VInt 13; baz] false (lit "[0013] foo bar baz" ++ [10]).
Proof. txt. Qed.
Lemma t_f : text_is (lit "[%d] foo bar %s%%%zu,%lld" ++ [10]) [VInt 13; baz; VLong (2 ^ 64 - 1); VLong (2 ^ 64 - 1)] false (lit "[13] foo bar baz%18446744073709551615,-1" ++ [10]).
Proof. txt. Qed.
Lemma t_fp : text_is ((lit "[%d] foo bar %s%%%zu,%lld" ++ [10]) ++ lit "%") [VInt 13; baz; VLong (2 ^ 64 - 1); VLong (2 ^ 64 - 1)] true (lit "[13] foo bar baz%18446744073709551615,-1" ++ [10]).
Proof. txt. Qed.
Lemma t_d : text_is (lit "%d") [VInt 1337] false (lit "1337").
Proof. txt. Qed.
Lemma t_x : text_is (lit "%x") [VInt 10] false (lit "a").
Proof. txt. Qed.
Lemma t_X : text_is (lit "%X") [VInt 10] false (lit "A").
Proof. txt. Qed.
Lemma t_2x : text_is (lit "%.2x") [VInt 10] false (lit "0a").
Proof. txt. Qed.
Lemma t_2X : text_is (lit "%.2X") [VInt 10] false (lit "0A").
Proof. txt. Qed.
Lemma sf_p p : sf_ok 128 (lit "%p") [VLong p] None None.
Proof.
  intros c b L L'. destruct (c55_vsnprintf (lit "%p") [] [VLong p] c) as (t & H); [now apply nzb_nz|reflexivity|repeat constructor|exact L|].
  unfold ulz_snprintf. change (lit "%p" ++ [0]) with (lit "%p" ++ 0 :: []). destruct (c55_bounds t b 128 ltac:(lia)) as (B1 & _ & B2 & _).
  destruct H as [H|H]; rewrite H by lia; do 2 eexists; (split; [reflexivity|]); split; [rewrite B1; exact L'|split; exact I|rewrite B2; exact L'|split; exact I].
Qed.
Lemma sf_steps_ok p junk : zlen junk = 128 -> Forall step_ok (sf_steps p junk).
Proof.
  intros L. assert (R : 1 <= 128 <= 128 /\ 1 <= 4 <= 128 /\ 1 <= 10 <= 128) by lia. destruct R as (R1 & R2 & R3).
  pose proof (sf_of 128 _ _ _ R1 t_f4 eq_refl) as A1. pose proof (sf0_of _ _ _ t_f4) as A2. pose proof (sf_of 128 _ _ _ R1 t_f eq_refl) as A3. pose proof (sf_fail 128 _ _ _ R1 t_fp) as A4.
  pose proof (sf_of 4 _ _ _ R2 t_d eq_refl) as A5. pose proof (sf0_of _ _ _ t_d) as A6. pose proof (sf0_of _ _ _ t_x) as A7. pose proof (sf0_of _ _ _ t_X) as A8.
  pose proof (sf_of 10 _ _ _ R3 t_x eq_refl) as A9. pose proof (sf_of 10 _ _ _ R3 t_X eq_refl) as A10. pose proof (sf0_of _ _ _ t_2x) as A11. pose proof (sf0_of _ _ _ t_2X) as A12.
  pose proof (sf_of 10 _ _ _ R3 t_2x eq_refl) as A13. pose proof (sf_of 10 _ _ _ R3 t_2X eq_refl) as A14.
  unfold sf_steps. cbv zeta.
  apply Forall_cons; [exact A1|]. apply Forall_cons; [exact A2|]. apply Forall_cons; [exact A3|]. apply Forall_cons; [exact A4|]. apply Forall_cons; [exact A2|]. apply Forall_cons; [exact A5|]. apply Forall_cons; [exact L|].
  apply Forall_cons; [exact A6|]. apply Forall_cons; [apply sf_p|]. apply Forall_cons; [exact A7|]. apply Forall_cons; [exact A8|]. apply Forall_cons; [exact A9|]. apply Forall_cons; [exact A10|].
  apply Forall_cons; [exact A11|]. apply Forall_cons; [exact A12|]. apply Forall_cons; [exact A13|]. apply Forall_cons; [exact A14|]. apply Forall_nil.
Qed.

(** ** stringptr_replace_test *)
Definition rep_good (c : list Z * list Z * list Z * list Z) : Prop :=
  let '(s, what, whit, want) := c in what <> [] /\ zlen s < 2 ^ 20 /\ zlen what < 2 ^ 20 /\ zlen whit < 2 ^ 20 /\ zlen want < 2 ^ 20.
(** the replaced string is the wanted one *)
Definition rep_is (c : list Z * list Z * list Z * list Z) : Prop := let '(s, what, whit, want) := c in forall ps, cut what s ps -> S_stringptr.join whit ps = want.
Lemma cut_small s what whit ps : what <> [] -> zlen s < 2 ^ 20 -> zlen whit < 2 ^ 20 -> cut what s ps -> zlen (S_stringptr.join whit ps) < 2 ^ 62.
Proof.
  intros Nw L1 L2 C. destruct (cut_count _ _ _ C) as [C1 C2]. rewrite zlen_join by (eapply cut_nonempty; eauto).
  assert (1 <= zlen what). { destruct what; [congruence|]. rewrite zlen_cons. pose proof (zlen_nonneg what). lia. }
  pose proof (zlen_nonneg ps). pose proof (zlen_nonneg whit). pose proof (zlen_nonneg (concat ps)). assert (0 <= zlen ps - 1). { assert (N := cut_nonempty _ _ _ C). destruct ps; [congruence|]. rewrite zlen_cons. pose proof (zlen_nonneg ps). lia. }
  assert (zlen ps - 1 <= zlen s) by nia. assert ((zlen ps - 1) * zlen whit <= 2 ^ 20 * 2 ^ 20) by (apply Z.mul_le_mono_nonneg; lia). nia.
Qed.
Lemma new_holds r t : zlen t < 2 ^ 62 -> new_with r t -> holds r t.
Proof. intros L (hd & Lh & ->). exists hd, [0]. unfold holds_in. cbn [sb so sz]. repeat split; [lia|]. zl. lia. Qed.
Lemma rep_run_ok mc mr : forall cs, Forall rep_good cs -> forall k, (forall i, (k <= i < k + List.length cs)%nat -> mc i <> None) ->
  exists es, rep_run mc mr k cs = Ret es /\ List.length es = List.length cs /\ forall i c, nth_error cs i = Some c -> exists e, nth_error es i = Some e /\ (e = true <-> mr (k + i)%nat <> None /\ rep_is c).
Proof.
  induction cs as [|[[[s what] whit] want] cs IH]; intros F k Hm.
  - exists []. repeat split. intros [|i] c H; discriminate.
  - inversion F as [|? ? G F']; subst. cbn in G. destruct G as (Nw & L1 & L2 & L3 & L4). cbn [rep_run].
    destruct (mc k) as [jc|] eqn:Ec; [|exfalso; apply (Hm k); [cbn; lia|exact Ec]].
    destruct (copy_ok jc _ _ (spl_holds s ltac:(lia))) as (r & E & hd & Lh & ->). rewrite E, bind_ret.
    destruct (IH F' (S k)) as (es & Ees & Le & He); [intros i Hi; apply Hm; cbn; lia|].
    assert (Hb : holds_in (mkSp (hd ++ s ++ [0]) 16 (zlen s)) hd s (0 :: [])). { unfold holds_in. cbn [sb so sz]. repeat split; [lia|]. zl. lia. }
    assert (Rest : forall e, (e = true <-> mr k <> None /\ rep_is (s, what, whit, want)) -> exists es0, Ret (e :: es) = Ret es0 /\ List.length es0 = List.length ((s, what, whit, want) :: cs) /\
              forall i c, nth_error ((s, what, whit, want) :: cs) i = Some c -> exists e, nth_error es0 i = Some e /\ (e = true <-> mr (k + i)%nat <> None /\ rep_is c)).
    { intros e He0. exists (e :: es). split; [reflexivity|]. split; [cbn; lia|]. intros [|i] c Hi; cbn [nth_error] in *.
      - inversion Hi; subst. exists e. rewrite Nat.add_0_r. auto.
      - replace (k + S i)%nat with (S k + i)%nat by lia. now apply He. }
    destruct (mr k) as [jr|] eqn:Er.
    + destruct (replace_ok (S (S (S (List.length s)))) jr _ hd s 0 [] (SPLITERAL what) what (SPLITERAL whit) whit Hb (spl_holds what ltac:(lia)) Nw (spl_holds whit ltac:(lia))) as (ps & y & C & R & Y); [lia| |].
      { intros ps C. pose proof (cut_small s what whit ps Nw L1 L3 C). lia. }
      pose proof (cut_small s what whit ps Nw L1 L3 C) as Lj. rewrite R, bind_ret. rewrite (eq_ok _ _ _ _ (new_holds y _ Lj Y) (spl_holds want ltac:(lia))), bind_ret, Ees, bind_ret.
      destruct Y as (hd' & _ & ->). cbn [sz]. apply Rest. destruct (list_eq_dec Z.eq_dec (S_stringptr.join whit ps) want) as [X|X].
      * rewrite X, Z.eqb_refl. split; [intros _|reflexivity]. split; [congruence|]. intros ps' C'. now rewrite <- (cut_unique _ _ _ Nw C _ C').
      * split; [discriminate|]. intros [_ H]. exfalso. apply X. now apply H.
    + unfold stringptr_replace. destruct (splits_ok _ _ _ _ _ _ _ _ Hb (spl_holds what ltac:(lia)) Nw (ltac:(lia) : (S (List.length s) < S (S (S (List.length s))))%nat)) as (ps & C & R).
      rewrite R, bind_ret. cbn [stringptr_new bind stringptr_eq]. rewrite Ees, bind_ret. apply Rest. split; [discriminate|]. intros [H _]. congruence.
Qed.
Lemma rep_run_none mc mr : forall cs, Forall rep_good cs -> forall k, (exists i, (k <= i < k + List.length cs)%nat /\ mc i = None) -> rep_run mc mr k cs = UB.
Proof.
  induction cs as [|c0 cs IH]; intros F k (i & Hi & E); [cbn in Hi; lia|]. inversion F as [|? ? G F']; subst.
  destruct (mc k) as [jc|] eqn:Ek; [|destruct c0 as [[[s what] whit] want]; cbn [rep_run]; rewrite Ek; reflexivity].
  assert (Tl : rep_run mc mr (S k) cs = UB). { apply IH; [exact F'|]. exists i. split; [|exact E]. assert (i <> k) by congruence. cbn in Hi. lia. }
  destruct (rep_run_ok (fun _ => Some jc) mr [c0] ltac:(constructor; [exact G|constructor]) k ltac:(congruence)) as (es & H & _).
  destruct c0 as [[[s what] whit] want]. cbn [rep_run] in H |- *. rewrite Ek, Tl.
  destruct (stringptr_copy (Some jc) (SPLITERAL s)) as [c| |]; [|discriminate|discriminate]. cbn [bind] in H |- *.
  destruct (stringptr_replace _ _ c _ _) as [[y b]| |]; [|discriminate|discriminate]. cbn [bind] in H |- *.
  destruct (stringptr_eq y _) as [e| |]; [reflexivity|discriminate|discriminate].
Qed.
Lemma rep_cases_good : Forall rep_good rep_cases.
Proof. unfold rep_cases. repeat apply Forall_cons; try apply Forall_nil; (split; [discriminate|repeat split; reflexivity]). Qed.
