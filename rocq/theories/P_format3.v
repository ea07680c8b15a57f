(** More proofs about ulz_vsnprintf: no undefined behaviour, and the text. *)
From Verif Require Import Base Bits Cstr S_num L_num M_str M_num P_num M_format S_format P_format P_format2.

Lemma gstrmove s : forall fuel p r t, nz s -> (length s < fuel)%nat -> strmove collect fuel (p ++ s ++ 0 :: r) (zlen p) t = Ret (t ++ s).
Proof.
  induction s as [|c s IH]; intros fuel p r t N F; (destruct fuel as [|fuel]; [cbn in F; lia|]); cbn [strmove app].
  - rewrite zread_at by reflexivity. cbn [bind Z.eqb]. now rewrite app_nil_r.
  - apply nz_cons in N as [N0 N]. rewrite zread_at by reflexivity. cbn [bind]. replace (c =? 0) with false by lia. cbn [collect bind].
    specialize (IH fuel (p ++ [c]) r (t ++ [c]) N ltac:(cbn in F; lia)). rewrite <- !app_assoc in IH. cbn [app] in IH. rewrite zlen_app in IH. change (zlen [c]) with 1 in IH. exact IH.
Qed.
Lemma gstr0 s r t : nz s -> strmove0 collect (s ++ 0 :: r) 0 t = Ret (t ++ s).
Proof. intros N. unfold strmove0. apply (gstrmove s _ [] r t N). rewrite app_length. lia. Qed.
Lemma dc_nz lower d : 0 <= d -> digit_char lower d <> 0.
Proof. unfold digit_char. intros. destruct (d <? 10) eqn:?; [lia|]. destruct (d <? 36) eqn:?; [destruct lower; lia|lia]. Qed.
Lemma text_nz neg lower b ds : digits_ok b ds -> nz (sign_str neg ++ map (digit_char lower) ds).
Proof.
  intros H. apply nz_app. split; [destruct neg; repeat constructor; lia|]. unfold nz. apply Forall_map. eapply Forall_impl; [|exact H]. cbn. intros d Hd. apply dc_nz. lia.
Qed.
Lemma lor1 nf : 0 <= nf -> (Z.lor nf 1 <> 0) /\ Z.land (Z.lor nf 1) 2 = Z.land nf 2 /\ Z.land (Z.lor nf 1) 4 = Z.land nf 4.
Proof.
  intros H. split; [intros E; apply Z.lor_eq_0_iff in E as [_ E]; discriminate|]. rewrite !Z.land_lor_distr_l. change (Z.land 1 2) with 0. change (Z.land 1 4) with 0. now rewrite !Z.lor_0_r.
Qed.
Lemma neg_lor n nf : 0 <= nf -> neg_of n (Z.lor nf 1) = neg_of n nf.
Proof. intros H. unfold neg_of. destruct (lor1 nf H) as (_ & -> & _). reflexivity. Qed.
Lemma nconv_ok inn base w nf cbuf t : 0 <= inn < 2 ^ 64 -> base = 10 \/ base = 16 -> 0 <= w <= 9 -> 0 <= nf -> zlen cbuf = 32 ->
  exists ds cbuf', zlen cbuf' = 32 /\ digits_ok base ds /\
    nconv collect inn base w nf cbuf t = Ret (Some (cbuf', t ++ sign_str (neg_of inn nf) ++ map (digit_char (negb (Z.land nf 4 =? 0))) ds)) /\
    (w = 0 -> is_repr base (mag_of inn nf) ds) /\ (w <> 0 -> zlen ds = w /\ pos_value base ds = mag_of inn nf mod base ^ w).
Proof.
  intros N B W Nf C. assert (Hb : 2 <= base <= 62 /\ base mod 2 = 0 /\ (base <=? 36) = true) by (destruct B as [-> | ->]; repeat split; lia). destruct Hb as (Hb & Hm & Hl). unfold nconv. cbv zeta. destruct (Z.eqb_spec w 0) as [->|Nw]; cbn [negb].
  - destruct (nts_exact inn base cbuf nf N Hb Hm) as (ds & Rp & E). cbv zeta in E.
    assert (Ls : 1 <= zlen ds <= 20).
    { apply (digits_le base); try lia. exists (mag_of inn nf). split; [exact Rp|]. assert (mag_of inn nf < 2 ^ 64) by (unfold mag_of, neg_of; destruct (_ && _) eqn:X; lia). destruct B as [-> | ->]; lia. }
    set (text := sign_str (neg_of inn nf) ++ map (digit_char (lower_of base nf)) ds) in *.
    assert (Lt : zlen text <= 21) by (unfold text; zl; destruct (neg_of inn nf); cbn [sign_str]; zl; lia).
    assert (Et : sign_str (neg_of inn nf) ++ map (digit_char (lower_of base nf)) ds ++ [0] = text ++ [0]) by (unfold text; now rewrite <- app_assoc). rewrite Et in E. rewrite E by (zl; lia). cbn [bind].
    assert (Nz : nz text) by (apply (text_nz _ _ base); apply Rp). rewrite <- app_assoc. cbn [app]. rewrite gstr0 by exact Nz. cbn [bind].
    exists ds, (text ++ 0 :: zdrop (zlen (text ++ [0])) cbuf). split; [|split; [apply Rp|split; [|split; [auto|lia]]]].
    + pose proof (zlen_nonneg text). rewrite zlen_app, zlen_cons, zlen_zdrop by (zl; lia). zl. lia.
    + do 4 f_equal. unfold text, lower_of. rewrite Hl. cbn [andb]. try rewrite andb_true_r. reflexivity.
  - destruct (lor1 nf Nf) as (L0 & L2 & L4). destruct (nts_padded inn base cbuf w (Z.lor nf 1) N Hb Hm ltac:(lia)) as (ds & off & Lds & D & V & E & O & _).
    { destruct (neg_of inn (Z.lor nf 1)); cbn [b2z]; lia. }
    cbv zeta in E. rewrite (O L0) in E. rewrite neg_lor in * by assumption. assert (Hm' : mag_of inn (Z.lor nf 1) = mag_of inn nf) by (unfold mag_of; now rewrite neg_lor). rewrite Hm' in V.
    set (text := sign_str (neg_of inn nf) ++ map (digit_char (lower_of base (Z.lor nf 1))) ds) in *.
    assert (Lt : zlen text <= 10) by (unfold text; zl; destruct (neg_of inn nf); cbn [sign_str]; zl; lia).
    assert (Et : sign_str (neg_of inn nf) ++ map (digit_char (lower_of base (Z.lor nf 1))) ds ++ [0] = text ++ [0]) by (unfold text; now rewrite <- app_assoc). rewrite Et in E. rewrite E. cbn [bind].
    assert (Nz : nz text) by (now apply (text_nz _ _ base)). rewrite <- app_assoc. cbn [app]. rewrite gstr0 by exact Nz. cbn [bind].
    exists ds, (text ++ 0 :: zdrop (zlen (text ++ [0])) cbuf). split; [|split; [exact D|split; [|split; [lia|auto]]]].
    + pose proof (zlen_nonneg text). rewrite zlen_app, zlen_cons, zlen_zdrop by (zl; lia). zl. lia.
    + do 4 f_equal. unfold text, lower_of. rewrite Hl, L4. cbn [andb]. try rewrite andb_true_r. reflexivity.
Qed.
(** ** no undefined behaviour *)
Lemma isNumber_digit c : (isNumber c =? 1) = digit c.
Proof.
  unfold isNumber, switch1, digit. destruct (existsb _ NUMS) eqn:E.
  - apply existsb_exists in E as (x & I & X). apply Z.eqb_eq in X. subst x. cbn in I. lia.
  - symmetry. apply not_true_is_false. intros H. apply not_true_iff_false in E. apply E. apply existsb_exists. exists c. split; [cbn; lia|apply Z.eqb_refl].
Qed.
Lemma zread_off (p l : list Z) k i : 0 <= k -> i = zlen p + k -> zread (p ++ l) i = zread l k.
Proof.
  intros K ->. unfold zread. zpos. replace (0 <=? zlen p + k) with true by lia. replace (0 <=? k) with true by lia. rewrite nth_error_app2 by (unfold zlen; lia). replace (Z.to_nat (zlen p + k) - length p)%nat with (Z.to_nat k) by (unfold zlen; lia). reflexivity.
Qed.
(** the position of the loop inside the format, for each mode *)
Lemma loop_no_ub fuel : forall m l p r args w cbuf t, m = Text \/ m = Dir \/ m = Dig -> nz l -> 0 <= w <= 9 -> zlen cbuf = 32 -> one_digit m l = true -> given (takes m l) args ->
  (2 * length l + 2 < fuel)%nat -> (m = Text \/ p <> []) ->
  exists b t', fmt_loop collect fuel (p ++ l ++ 0 :: r) (match m with Text => false | _ => true end) (match m with Text => zlen p | _ => zlen p - 1 end) args w cbuf t = Ret (b, t').
Proof.
  induction fuel as [|fuel IH]; intros m l p r args w cbuf t M N W C O G F P; [lia|]. cbn [fmt_loop].
  assert (Nx : forall c l' args w cbuf t, l = c :: l' -> one_digit Text l' = true -> given (takes Text l') args -> 0 <= w <= 9 -> zlen cbuf = 32 ->
     forall a, a = zlen p -> exists b t', fmt_loop collect fuel (p ++ l ++ 0 :: r) false (a + 1) args w cbuf t = Ret (b, t')).
  { intros c l' args' w' cbuf' t' -> O' G' W' C' a ->. apply nz_cons in N as [_ N]. cbn [length] in F. destruct (IH Text l' (p ++ [c]) r args' w' cbuf' t' ltac:(auto) N W' C' O' G' ltac:(lia) ltac:(auto)) as (b & t'' & E).
    rewrite <- app_assoc, zlen_app in E. change (zlen [c]) with 1 in E. exists b, t''. exact E. }
  assert (Nc : forall pre c l' args inn base nf, l = pre ++ c :: l' -> one_digit Text l' = true -> given (takes Text l') args -> 0 <= inn < 2 ^ 64 -> base = 10 \/ base = 16 -> 0 <= nf ->
     forall a, a = zlen p + zlen pre -> exists b t', (let* r0 := nconv collect inn base w nf cbuf t in match r0 with None => Ret (true, t) | Some (cbuf, k) => fmt_loop collect fuel (p ++ l ++ 0 :: r) false (a + 1) args 0 cbuf k end) = Ret (b, t')).
  { intros pre c l' args' inn base nf -> O' G' I B Nf a ->. destruct (nconv_ok inn base w nf cbuf t I B W Nf C) as (ds & cbuf' & C' & _ & -> & _). cbn [bind]. apply nz_app in N as [_ N]. apply nz_cons in N as [_ N]. rewrite app_length in F. cbn [length] in F.
    match goal with |- context [fmt_loop _ _ _ _ _ _ _ _ ?tt] => destruct (IH Text l' (p ++ pre ++ [c]) r args' 0 cbuf' tt ltac:(auto) N ltac:(lia) C' O' G' ltac:(lia) ltac:(auto)) as (b & t'' & E) end.
    exists b, t''. rewrite <- E. rewrite <- !app_assoc. cbn [app]. f_equal. zl. lia. }
  destruct M as [-> | M].
  - (* the loop's condition *)
    cbn [negb]. destruct l as [|c l].
    { cbn [app]. rewrite zread_at by reflexivity. cbn [bind Z.eqb]. eauto. }
    apply nz_cons in N as [N0 N]. rewrite (zread_off p _ 0) by lia. change (zread ((c :: l) ++ 0 :: r) 0) with (Ret c). cbn [bind]. replace (c =? 0) with false by lia. cbn [one_digit takes step] in O, G. destruct (Z.eqb_spec c 37) as [->|Nc'].
    + destruct (IH Dir l (p ++ [37]) r args w cbuf t ltac:(auto) N W C O G ltac:(cbn in F; lia)) as (b & t' & E). { right. destruct p; discriminate. }
      exists b, t'. rewrite <- E. rewrite <- app_assoc. cbn [app]. f_equal. zl. lia.
    + cbn [collect bind]. apply (Nx c l); auto.
  - assert (X : exists b t', fmt_loop collect (S fuel) (p ++ l ++ 0 :: r) true (zlen p - 1) args w cbuf t = Ret (b, t')); [|destruct M as [-> | ->]; exact X]. cbn [fmt_loop negb].
    assert (O' : match l with [] => True | c :: l' => match dir_char c with None => True | Some (_, m) => one_digit m l' = true end end).
    { destruct l as [|c l]; [exact I|]. destruct M as [-> | ->]; cbn [one_digit step] in O; destruct (dir_char c) as [[k m']|]; auto. apply andb_prop in O. apply O. }
    assert (G' : match l with [] => True | c :: l' => match dir_char c with None => True | Some (Some k, m) => given (k :: takes m l') args | Some (None, m) => given (takes m l') args end end).
    { destruct l as [|c l]; [exact I|]. destruct M as [-> | ->]; cbn [takes step] in G; destruct (dir_char c) as [[[k|] m']|]; auto. }
    clear O G. replace (zlen p - 1 + 1) with (zlen p) by lia. destruct l as [|c l].
    { cbn [app]. rewrite zread_at by reflexivity. cbn. eauto. }
    cbn [length] in F. rewrite (zread_off p ((c :: l) ++ 0 :: r) 0) by lia. change (zread ((c :: l) ++ 0 :: r) 0) with (Ret c). cbn [bind]. unfold dir_char in O', G'.
    destruct (Z.eqb_spec c 37) as [->|N1]. { cbn [collect bind]. apply (Nx 37 l); auto. }
    destruct (Z.eqb_spec c 46) as [->|N2].
    { destruct l as [|d l].
      - cbn [digits]. replace (zlen p + 1 + 0) with (zlen p + 1) by lia. rewrite (zread_off p _ 1) by lia. change (zread ([46] ++ 0 :: r) 1) with (Ret 0). cbn. eauto.
      - cbn [one_digit takes step] in O', G'. cbn [digits length]. replace (zlen p + 1 + 0) with (zlen p + 1) by lia. rewrite (zread_off p _ 1) by lia. change (zread ((46 :: d :: l) ++ 0 :: r) 1) with (Ret d). cbn [bind]. rewrite isNumber_digit. destruct (digit d) eqn:D; [|cbn; eauto].
        assert (D' : (isNumber (znth 0 (l ++ [0]) 0) =? 1) = false). { rewrite isNumber_digit. destruct l as [|e l]; [reflexivity|]. cbn in O'. apply andb_prop in O' as [O' _]. apply negb_true_iff in O'. exact O'. }
        assert (Z2 : zread (p ++ (46 :: d :: l) ++ 0 :: r) (zlen p + 1 + (0 + 1)) = Ret (znth 0 (l ++ [0]) 0)). { rewrite (zread_off p _ 2) by lia. destruct l; reflexivity. }
        assert (Ed : digits (length (p ++ (46 :: d :: l) ++ 0 :: r)) (p ++ (46 :: d :: l) ++ 0 :: r) (zlen p + 1) (0 + 1) = Ret 1).
        { destruct (length (p ++ (46 :: d :: l) ++ 0 :: r)) eqn:Ln; [rewrite !app_length in Ln; cbn in Ln; lia|]. cbn [digits]. rewrite Z2. cbn [bind]. now rewrite D'. }
        rewrite Ed. cbn [bind Z.eqb]. change (Z.to_nat 1) with 1%nat. cbn [width_loop]. replace (zlen p + 1 + 0) with (zlen p + 1) by lia. rewrite (zread_off p _ 1) by lia. change (zread ((46 :: d :: l) ++ 0 :: r) 1) with (Ret d). cbn [bind Z.eqb negb].
        assert (Hd : 48 <= d <= 57) by (unfold digit in D; lia). rewrite u64_id by lia. apply nz_cons in N as [_ N]. apply nz_cons in N as [_ N]. cbn [length] in F.
        destruct (IH Dig l (p ++ [46; d]) r args (0 + (d - 48) * 1) cbuf t ltac:(auto) N ltac:(lia) C O' G' ltac:(lia)) as (b & t' & E). { right. destruct p; discriminate. }
        exists b, t'. rewrite <- E. rewrite <- app_assoc. cbn [app]. f_equal. rewrite zlen_app. change (zlen [46; d]) with 2. lia. }
    destruct (Z.eqb_spec c 115) as [->|N3].
    { inversion G' as [|k ks a args' K G'' E1 E2]; subst. destruct a as [x|x|[s|]]; try contradiction; cbn [arg_str bind]; [|eauto]. destruct K as (s' & r' & -> & Ns). rewrite gstr0 by exact Ns. cbn [bind]. apply (Nx 115 l); auto. }
    destruct (Z.eqb_spec c 99) as [->|N4].
    { inversion G' as [|k ks a args' K G'' E1 E2]; subst. destruct a as [x|x|s]; try contradiction; cbn [arg_int bind]. destruct cbuf as [|c0 [|c1 cb]]; [discriminate|discriminate|]. cbn [zwrite]. change (zwrite (c0 :: c1 :: cb) 0 (u8 x)) with (zwrite ([] ++ c0 :: c1 :: cb) 0 (u8 x)).
      rewrite zwrite_at by reflexivity. cbn [bind app]. change (u8 x :: c1 :: cb) with ([u8 x] ++ c1 :: cb). rewrite zwrite_at by reflexivity. cbn [bind app].
      destruct (Z.eqb_spec (u8 x) 0) as [E0|E0].
      - pose proof (gstr0 [] (0 :: cb) t nz_nil) as Q. cbn [app] in Q. rewrite E0, Q. cbn [bind]. apply (Nx 99 l); auto.
      - assert (Nx1 : nz [u8 x]) by (constructor; [exact E0|constructor]). pose proof (gstr0 [u8 x] cb t Nx1) as Q. cbn [app] in Q. rewrite Q. cbn [bind]. apply (Nx 99 l); auto. }
    destruct (Z.eqb_spec c 100) as [->|N5].
    { inversion G' as [|k ks a args' K G'' E1 E2]; subst. destruct a as [x|x|s]; try contradiction; cbn [arg_int bind]. apply (Nc [] 100 l); auto; try lia; [apply u64_range|change (zlen []) with 0; lia]. }
    destruct (Z.eqb_spec c 108) as [->|N6]; [|destruct (Z.eqb_spec c 122) as [->|N7]].
    { cbn [orb Z.eqb] in *. cbn in O', G'. rewrite (zread_off p _ 1) by lia. destruct l as [|d l].
      - change (zread ([108] ++ 0 :: r) 1) with (Ret 0). cbn [bind Z.eqb]. rewrite (zread_off p _ 1) by lia. change (zread ([108] ++ 0 :: r) 1) with (Ret 0). cbn. eauto.
      - change (zread ((108 :: d :: l) ++ 0 :: r) 1) with (Ret d). cbn [bind]. cbn [one_digit takes step] in O', G'. destruct (Z.eqb_spec d 108) as [->|Nd].
        + rewrite (zread_off p _ 2) by lia. destruct l as [|e l]; [change (zread ([108; 108] ++ 0 :: r) 2) with (Ret 0); cbn; eauto|]. change (zread ((108 :: 108 :: e :: l) ++ 0 :: r) 2) with (Ret e). cbn [bind]. cbn [one_digit takes step] in O', G'.
          destruct (Z.eqb_spec e 100) as [->|Ne]; [|destruct (Z.eqb_spec e 117) as [->|Ne2]; [|cbn; eauto]]; cbn [orb andb negb Z.eqb] in *; inversion G' as [|k ks a args' K G'' E1 E2]; subst; destruct a as [x|x|s]; try contradiction; cbn [arg_long bind];
            [apply (Nc [108; 108] 100 l)|apply (Nc [108; 108] 117 l)]; auto; try apply u64_range; try lia; change (zlen [108; 108]) with 2; lia.
        + rewrite (zread_off p _ 1) by lia. change (zread ((108 :: d :: l) ++ 0 :: r) 1) with (Ret d). cbn [bind].
          destruct (Z.eqb_spec d 100) as [->|Ne]; [|destruct (Z.eqb_spec d 117) as [->|Ne2]; [|cbn; eauto]]; cbn [orb andb negb Z.eqb] in *; inversion G' as [|k ks a args' K G'' E1 E2]; subst; destruct a as [x|x|s]; try contradiction; cbn [arg_long bind];
            [apply (Nc [108] 100 l)|apply (Nc [108] 117 l)]; auto; try apply u64_range; try lia; change (zlen [108]) with 1; lia. }
    { cbn [orb Z.eqb bind] in *. cbn in O', G'. rewrite (zread_off p _ 1) by lia. destruct l as [|d l].
      - change (zread ([122] ++ 0 :: r) 1) with (Ret 0). cbn. eauto.
      - change (zread ((122 :: d :: l) ++ 0 :: r) 1) with (Ret d). cbn [bind]. cbn [one_digit takes step] in O', G'.
        destruct (Z.eqb_spec d 100) as [->|Ne]; [|destruct (Z.eqb_spec d 117) as [->|Ne2]; [|cbn; eauto]]; cbn [orb andb negb Z.eqb] in *; inversion G' as [|k ks a args' K G'' E1 E2]; subst; destruct a as [x|x|s]; try contradiction; cbn [arg_long bind];
            [apply (Nc [122] 100 l)|apply (Nc [122] 117 l)]; auto; try apply u64_range; try lia; change (zlen [122]) with 1; lia. }
    cbn [orb]. destruct (Z.eqb_spec c 112) as [->|N8].
    { cbn in O', G'. inversion G' as [|k ks a args' K G'' E1 E2]; subst. destruct a as [x|x|s]; try contradiction; cbn [arg_long bind]. apply (Nc [] 112 l); auto; try lia; [apply u64_range|change (zlen []) with 0; lia]. }
    destruct (Z.eqb_spec c 117) as [->|N9].
    { cbn in O', G'. inversion G' as [|k ks a args' K G'' E1 E2]; subst. destruct a as [x|x|s]; try contradiction; cbn [arg_int bind]. pose proof (u32_range x). apply (Nc [] 117 l); auto; try lia. change (zlen []) with 0; lia. }
    destruct (Z.eqb_spec c 120) as [->|N10]; [|destruct (Z.eqb_spec c 88) as [->|N11]]; cbn [orb]; [| |eauto];
      (cbn in O', G'; inversion G' as [|k ks a args' K G'' E1 E2]; subst; destruct a as [x|x|s]; try contradiction; cbn [arg_int bind Z.eqb]; eapply (Nc []); auto; try reflexivity; auto; try lia; [apply u64_range|change (zlen []) with 0; lia]).
Qed.
Lemma text_run_ok l r args cbuf : nz l -> zlen cbuf = 32 -> one_digit Text l = true -> given (takes Text l) args -> exists b t, text_run (l ++ 0 :: r) args cbuf = Ret (b, t).
Proof.
  intros N C O G. unfold text_run. apply (loop_no_ub _ Text l [] r args 0 cbuf []); auto; try lia. rewrite app_length. cbn [length]. lia.
Qed.
(** ** the text *)
Lemma strip base ds : 2 <= base -> digits_ok base ds -> ds <> [] -> exists ds0, is_repr base (pos_value base ds) ds0 /\ ds = zrepeat 0 (Z.max 0 (zlen ds - zlen ds0)) ++ ds0.
Proof.
  intros Hb. induction ds as [|d ds IH]; [easy|]. intros D _. inversion D as [|? ? D0 D1]; subst. destruct (Z.eq_dec d 0) as [->|Nd].
  - destruct ds as [|e ds].
    + exists [0]. split; [split; [exact D|split; [reflexivity|now left]]|reflexivity].
    + destruct (IH D1 ltac:(discriminate)) as (ds0 & R & E). exists ds0. split; [exact R|]. assert (L : zlen ds0 <= zlen (e :: ds)) by (rewrite E at 1; rewrite zlen_app; pose proof (zlen_nonneg (zrepeat 0 (Z.max 0 (zlen (e :: ds) - zlen ds0)))); lia).
      rewrite (zlen_cons 0). replace (Z.max 0 (1 + zlen (e :: ds) - zlen ds0)) with (1 + Z.max 0 (zlen (e :: ds) - zlen ds0)) by lia. rewrite E at 1. unfold zrepeat. rewrite Z2Nat.inj_add by lia. reflexivity.
  - exists (d :: ds). split; [split; [exact D|split; [reflexivity|right; eauto]]|]. replace (Z.max 0 _) with 0 by lia. reflexivity.
Qed.
Definition item_num (m : lmod) (cv : conv) (v : Z) : Z := match m, cv with Mnone, Cu => u32 v | Mnone, _ => u64 (s32 v) | _, _ => u64 v end.
Definition item_flags (cv : conv) : Z := match cv with Cd => 2 | Cx => 4 | _ => 0 end.
Lemma item_num_ok m cv v : in_type m cv v -> 0 <= item_num m cv v < 2 ^ 64 /\ neg_of (item_num m cv v) (item_flags cv) = (v <? 0) /\ mag_of (item_num m cv v) (item_flags cv) = Z.abs v.
Proof.
  intros T. assert (R : 0 <= item_num m cv v < 2 ^ 64). { unfold item_num. pose proof (u32_range v). destruct m, cv; try apply u64_range; lia. } split; [exact R|].
  assert (E : item_num m cv v = if v <? 0 then v + 2 ^ 64 else v).
  { unfold item_num. destruct m, cv; cbn [in_type] in T; try contradiction; try rewrite s32_id by lia; try (rewrite u32_id by lia; destruct (Z.ltb_spec v 0); lia); (destruct (Z.ltb_spec v 0); [unfold u64; rewrite <- (Z_mod_plus_full v 1), Z.mod_small by lia; lia|apply u64_id; lia]). }
  rewrite E. assert (X : neg_of (if v <? 0 then v + 2 ^ 64 else v) (item_flags cv) = (v <? 0)).
  { unfold neg_of. destruct (Z.ltb_spec v 0).
    - destruct m, cv; cbn [in_type] in T; try contradiction; try lia; cbn; lia.
    - destruct m, cv; cbn [in_type] in T; try contradiction; try reflexivity; cbn [item_flags]; change (negb (Z.land 2 2 =? 0)) with true; cbn [andb]; lia. }
  split; [exact X|]. unfold mag_of. rewrite X. destruct (Z.ltb_spec v 0); lia.
Qed.
Lemma item_conv p m cv v cbuf t : supported (Num p m cv v) -> zlen cbuf = 32 -> exists s cbuf', zlen cbuf' = 32 /\ prints (Num p m cv v) s /\
  nconv collect (item_num m cv v) (conv_base cv) (match p with None => 0 | Some p => p end) (item_flags cv) cbuf t = Ret (Some (cbuf', t ++ s)).
Proof.
  intros [T P] C. destruct (item_num_ok m cv v T) as (R & Ng & Mg). set (w := match p with None => 0 | Some p => p end).
  assert (W : 0 <= w <= 9) by (unfold w; destruct p; lia). assert (B : conv_base cv = 10 \/ conv_base cv = 16) by (destruct cv; cbn; auto).
  destruct (nconv_ok (item_num m cv v) (conv_base cv) w (item_flags cv) cbuf t R B W ltac:(destruct cv; cbn; lia) C) as (ds & cbuf' & C' & D & E & W0 & W1). rewrite Ng, Mg in *.
  exists (sign_str (v <? 0) ++ map (digit_char (negb (Z.land (item_flags cv) 4 =? 0))) ds), cbuf'. split; [exact C'|]. split; [|exact E].
  assert (Lw : negb (Z.land (item_flags cv) 4 =? 0) = conv_lower cv) by (destruct cv; reflexivity). rewrite Lw. cbn [prints]. unfold w in *. destruct p as [p|].
  - destruct (W1 ltac:(lia)) as [Ln V]. rewrite Z.mod_small in V by lia. destruct (strip (conv_base cv) ds ltac:(lia) D) as (ds0 & R0 & E0). { intros ->. change (zlen (@nil Z)) with 0 in Ln. lia. }
    exists ds0. rewrite V in R0. split; [exact R0|]. rewrite Ln in E0. now rewrite <- E0.
  - exists ds. split; [auto|]. assert (L1 : 1 <= zlen ds). { destruct (W0 eq_refl) as (_ & _ & [-> | (d & r & -> & _)]); [cbn; lia|zl; pose proof (zlen_nonneg r); lia]. }
    replace (Z.max 0 (1 - zlen ds)) with 0 by lia. reflexivity.
Qed.
Lemma item_dir p m cv v fuel P q args w cbuf t : in_type m cv v ->
  fmt_loop collect (S fuel) (P ++ lmod_fmt m ++ conv_fmt cv :: q) true (zlen P - 1) (item_args (Num p m cv v) ++ args) w cbuf t =
  (let* r := nconv collect (item_num m cv v) (conv_base cv) w (item_flags cv) cbuf t in
   match r with None => Ret (true, t) | Some (cbuf, k) => fmt_loop collect fuel (P ++ lmod_fmt m ++ conv_fmt cv :: q) false (zlen P + zlen (lmod_fmt m) + 1) args 0 cbuf k end).
Proof.
  intros T. cbn [fmt_loop negb]. replace (zlen P - 1 + 1) with (zlen P) by lia.
  rewrite (zread_off P _ 0) by lia. rewrite ?(zread_off P _ 1) by lia.
  destruct m, cv; cbn [in_type] in T; try contradiction; cbn [lmod_fmt conv_fmt item_args app item_num conv_base item_flags];
    repeat match goal with
    | |- context [zread (?c :: ?l) 0] => change (zread (c :: l) 0) with (Ret c)
    | |- context [zread (?c :: ?d :: ?l) 1] => change (zread (c :: d :: l) 1) with (Ret d)
    end; cbn [bind Z.eqb Pos.eqb orb andb negb arg_int arg_long]; rewrite ?(zread_off P _ 1) by lia; rewrite ?(zread_off P _ 2) by lia;
    repeat match goal with
    | |- context [zread (?c :: ?d :: ?l) 1] => change (zread (c :: d :: l) 1) with (Ret d)
    | |- context [zread (?c :: ?d :: ?e :: ?l) 2] => change (zread (c :: d :: e :: l) 2) with (Ret e)
    end; cbn [bind Z.eqb Pos.eqb orb andb negb arg_int arg_long];
    repeat match goal with |- context [zlen (?c :: ?l)] => let x := eval cbn in (zlen (c :: l)) in change (zlen (c :: l)) with x end; change (zlen (@nil Z)) with 0; rewrite ?Z.add_0_r; try reflexivity;
    try (replace (zlen P + 1 + 1 + 1) with (zlen P + 2 + 1) by lia; reflexivity).
Qed.
Lemma item_step i : supported i -> exists n, (n <= length (item_fmt i))%nat /\ forall fuel p q args cbuf t, zlen cbuf = 32 -> exists s cbuf', zlen cbuf' = 32 /\ prints i s /\
  fmt_loop collect (n + fuel) (p ++ item_fmt i ++ q) false (zlen p) (item_args i ++ args) 0 cbuf t = fmt_loop collect fuel (p ++ item_fmt i ++ q) false (zlen p + zlen (item_fmt i)) args 0 cbuf' (t ++ s).
Proof.
  intros S. destruct i as [c| |s0 rest|c|pr m cv v|v].
  - exists 1%nat. split; [cbn; lia|]. intros fuel p q args cbuf t C. exists [c], cbuf. split; [exact C|]. split; [reflexivity|]. destruct S as [S1 S2]. cbn [Nat.add fmt_loop negb item_fmt item_args app]. rewrite zread_at by reflexivity. cbn [bind]. replace (c =? 0) with false by lia. replace (c =? 37) with false by lia. reflexivity.
  - exists 2%nat. split; [cbn; lia|]. intros fuel p q args cbuf t C. exists [37], cbuf. split; [exact C|]. split; [reflexivity|]. cbn [Nat.add fmt_loop negb item_fmt item_args app]. rewrite zread_at by reflexivity. cbn [bind Z.eqb]. cbn [Pos.eqb]. rewrite (zread_off p _ 1) by lia. change (zread (37 :: 37 :: q) 1) with (Ret 37). cbn [bind collect Z.eqb Pos.eqb]. replace (zlen p + 1 + 1) with (zlen p + 2) by lia. reflexivity.
  - exists 2%nat. split; [cbn; lia|]. intros fuel p q args cbuf t C. exists s0, cbuf. split; [exact C|]. split; [reflexivity|]. cbn [Nat.add fmt_loop negb item_fmt item_args app]. rewrite zread_at by reflexivity. cbn [bind Z.eqb Pos.eqb]. rewrite (zread_off p _ 1) by lia. change (zread (37 :: 115 :: q) 1) with (Ret 115). cbn [bind Z.eqb Pos.eqb arg_str].
    rewrite gstr0 by exact S. cbn [bind]. replace (zlen p + 1 + 1) with (zlen p + 2) by lia. reflexivity.
  - exists 2%nat. split; [cbn; lia|]. intros fuel p q args cbuf t C. destruct cbuf as [|c0 [|c1 cb]]; [discriminate|discriminate|]. exists [c], (c :: 0 :: cb). split; [exact C|]. split; [reflexivity|]. cbn [Nat.add fmt_loop negb item_fmt item_args app]. rewrite zread_at by reflexivity. cbn [bind Z.eqb Pos.eqb]. rewrite (zread_off p _ 1) by lia. change (zread (37 :: 99 :: q) 1) with (Ret 99). cbn [bind Z.eqb Pos.eqb arg_int].
    cbn [supported] in S. rewrite u8_id by lia. change (zwrite (c0 :: c1 :: cb) 0 c) with (zwrite ([] ++ c0 :: c1 :: cb) 0 c). rewrite zwrite_at by reflexivity. cbn [bind app]. change (c :: c1 :: cb) with ([c] ++ c1 :: cb). rewrite zwrite_at by reflexivity. cbn [bind app].
    assert (Nc : nz [c]) by (constructor; [lia|constructor]). pose proof (gstr0 [c] cb t Nc) as Q. cbn [app] in Q. rewrite Q. cbn [bind]. replace (zlen p + 1 + 1) with (zlen p + 2) by lia. reflexivity.
  - pose proof S as [T P]. destruct pr as [w|].
    + exists 3%nat. split; [cbn; rewrite app_length; cbn; lia|]. intros fuel p q args cbuf t C. destruct (item_conv (Some w) m cv v cbuf t S C) as (s & cbuf' & C' & Ps & E). exists s, cbuf'. split; [exact C'|]. split; [exact Ps|].
      change (3 + fuel)%nat with (Datatypes.S (Datatypes.S (Datatypes.S fuel))). remember (Datatypes.S fuel) as k1 eqn:K1. cbn [fmt_loop negb item_fmt]. cbn [app]. rewrite <- app_assoc. cbn [app]. rewrite zread_at by reflexivity. cbn [bind Z.eqb Pos.eqb]. rewrite (zread_off p _ 1) by lia.
      set (tl := lmod_fmt m ++ conv_fmt cv :: q) in *. change (zread (37 :: 46 :: (48 + w) :: tl) 1) with (Ret 46). cbn [bind Z.eqb Pos.eqb].
      assert (Z1 : zread (p ++ 37 :: 46 :: (48 + w) :: tl) (zlen p + 1 + 1 + 0) = Ret (48 + w)) by (rewrite (zread_off p _ 2) by lia; reflexivity).
      assert (N1 : isNumber (48 + w) =? 1 = true) by (rewrite isNumber_digit; unfold digit; lia).
      assert (Z2 : exists e, zread (p ++ 37 :: 46 :: (48 + w) :: tl) (zlen p + 1 + 1 + 1) = Ret e /\ (isNumber e =? 1) = false).
      { exists (znth 0 tl 0). rewrite (zread_off p _ 3) by lia. unfold tl. destruct m, cv; split; reflexivity. }
      destruct Z2 as (e & Z2 & N2).
      assert (Ed : digits (Datatypes.S (length (p ++ 37 :: 46 :: (48 + w) :: tl))) (p ++ 37 :: 46 :: (48 + w) :: tl) (zlen p + 1 + 1) 0 = Ret 1).
      { destruct (length (p ++ 37 :: 46 :: (48 + w) :: tl)) eqn:Ln; [rewrite !app_length in Ln; cbn in Ln; lia|]. cbn [digits]. rewrite Z1. cbn [bind]. rewrite N1. change (0 + 1) with 1. rewrite Z2. cbn [bind]. now rewrite N2. }
      change (length (p ++ 37 :: 46 :: 48 + w :: tl)) with (length (p ++ 37 :: 46 :: (48 + w) :: tl)). rewrite Ed. cbn [bind Z.eqb]. change (Z.to_nat 1) with 1%nat. cbn [width_loop]. rewrite Z1. cbn [bind Z.eqb negb].
      replace (0 + (48 + w - 48) * 1) with w by lia. rewrite u64_id by lia. subst k1.
      pose proof (item_dir (Some w) m cv v fuel (p ++ [37; 46; 48 + w]) q args w cbuf t T) as Q. rewrite E in Q. cbn [bind] in Q. fold tl in Q. rewrite <- app_assoc in Q. cbn [app] in Q. replace (zlen (p ++ [37; 46; 48 + w]) - 1) with (zlen p + 1 + 1) in Q by (zl; lia). rewrite Q. f_equal. zl. lia.
    + exists 2%nat. split; [cbn; rewrite app_length; cbn; lia|]. intros fuel p q args cbuf t C. destruct (item_conv None m cv v cbuf t S C) as (s & cbuf' & C' & Ps & E). exists s, cbuf'. split; [exact C'|]. split; [exact Ps|].
      change (2 + fuel)%nat with (Datatypes.S (Datatypes.S fuel)). remember (Datatypes.S fuel) as k1 eqn:K1. cbn [fmt_loop negb item_fmt]. cbn [app]. rewrite <- app_assoc. cbn [app]. rewrite zread_at by reflexivity. cbn [bind Z.eqb Pos.eqb]. subst k1.
      pose proof (item_dir None m cv v fuel (p ++ [37]) q args 0 cbuf t T) as Q. rewrite E in Q. cbn [bind] in Q. rewrite <- app_assoc in Q. cbn [app] in Q. replace (zlen (p ++ [37]) - 1) with (zlen p) in Q by (zl; lia). rewrite Q. f_equal. zl. lia.
  - cbn [supported] in S. exists 2%nat. split; [cbn; lia|]. intros fuel p q args cbuf t C.
    destruct (nconv_ok v 16 0 0 cbuf t S ltac:(auto) ltac:(lia) ltac:(lia) C) as (ds & cbuf' & C' & D & E & W0 & _). change (neg_of v 0) with false in E. change (mag_of v 0) with v in *.
    exists (map (digit_char false) ds), cbuf'. split; [exact C'|]. specialize (W0 eq_refl). split.
    + exists ds. cbn [conv_base conv_lower]. rewrite Z.abs_eq by lia. split; [exact W0|]. assert (L1 : 1 <= zlen ds). { destruct W0 as (_ & _ & [-> | (d & r & -> & _)]); [cbn; lia|zl; pose proof (zlen_nonneg r); lia]. }
      replace (v <? 0) with false by lia. replace (Z.max 0 (1 - zlen ds)) with 0 by lia. reflexivity.
    + change (2 + fuel)%nat with (Datatypes.S (Datatypes.S fuel)). remember (Datatypes.S fuel) as k1 eqn:K1. cbn [fmt_loop negb item_fmt app]. rewrite zread_at by reflexivity. cbn [bind Z.eqb Pos.eqb]. subst k1. cbn [fmt_loop negb]. rewrite (zread_off p _ 1) by lia.
      change (zread (37 :: 112 :: q) 1) with (Ret 112). cbn [bind Z.eqb Pos.eqb orb item_args app arg_long]. rewrite u64_id by lia. rewrite E. cbn [bind]. replace (zlen p + 1 + 1) with (zlen p + 2) by lia. reflexivity.
Qed.
(** the items, whatever follows them *)
Lemma items_pass items : Forall supported items -> forall fuel p q args cbuf t, zlen cbuf = 32 -> (length (concat (map item_fmt items)) <= fuel)%nat ->
  exists fuel' cbuf' ss, (fuel <= fuel' + length (concat (map item_fmt items)))%nat /\ zlen cbuf' = 32 /\ Forall2 prints items ss /\
    fmt_loop collect fuel (p ++ concat (map item_fmt items) ++ q) false (zlen p) (concat (map item_args items) ++ args) 0 cbuf t =
    fmt_loop collect fuel' (p ++ concat (map item_fmt items) ++ q) false (zlen p + zlen (concat (map item_fmt items))) args 0 cbuf' (t ++ concat ss).
Proof.
  induction items as [|i items IH]; intros Fs fuel p q args cbuf t C F; cbn [map concat app] in *.
  - exists fuel, cbuf, []. split; [lia|]. split; [exact C|]. split; [constructor|]. cbn [concat]. rewrite app_nil_r. f_equal. cbn. lia.
  - inversion Fs as [|? ? Hi Hs]; subst. rewrite app_length in *. destruct (item_step i Hi) as (n & Ln & St).
    destruct (St (fuel - n)%nat p (concat (map item_fmt items) ++ q) (concat (map item_args items) ++ args) cbuf t C) as (s & cbuf' & C' & Ps & E).
    replace (n + (fuel - n))%nat with fuel in E by lia. rewrite <- !app_assoc. rewrite E.
    destruct (IH Hs (fuel - n)%nat (p ++ item_fmt i) q args cbuf' (t ++ s) C' ltac:(lia)) as (fuel' & cb & ss & Lf & Cb & Pss & E').
    exists fuel', cb, (s :: ss). split; [lia|]. split; [exact Cb|]. split; [now constructor|]. rewrite <- app_assoc, zlen_app in E'. rewrite E'. cbn [concat]. rewrite <- app_assoc, zlen_app. f_equal. lia.
Qed.
Lemma items_run items : Forall supported items -> forall fuel p r args cbuf t, zlen cbuf = 32 -> (length (concat (map item_fmt items)) < fuel)%nat ->
  exists ss, Forall2 prints items ss /\
    fmt_loop collect fuel (p ++ concat (map item_fmt items) ++ 0 :: r) false (zlen p) (concat (map item_args items) ++ args) 0 cbuf t = Ret (false, t ++ concat ss).
Proof.
  intros Fs fuel p r args cbuf t C F. destruct (items_pass items Fs fuel p (0 :: r) args cbuf t C ltac:(lia)) as (f' & cb & ss & L & Cb & P & E). exists ss. split; [exact P|]. rewrite E.
  destruct f' as [|f']; [lia|]. cbn [fmt_loop negb]. rewrite (zread_off p _ (zlen (concat (map item_fmt items)))) by (try lia; apply zlen_nonneg). rewrite zread_at by reflexivity. reflexivity.
Qed.
(** the items and then a directive that fails: where it is read, fmt_loop gives up *)
Lemma items_fail items q args cbuf : Forall supported items -> zlen cbuf = 32 ->
  (forall fuel p cb t, fmt_loop collect (S fuel) (p ++ 37 :: q) true (zlen p) args 0 cb t = Ret (true, t)) ->
  exists ss, Forall2 prints items ss /\ text_run (concat (map item_fmt items) ++ 37 :: q) (concat (map item_args items) ++ args) cbuf = Ret (true, concat ss).
Proof.
  intros Fs C H. unfold text_run. pose proof (items_pass items Fs) as Q. set (f := concat (map item_fmt items)) in *.
  destruct (Q (2 * length (f ++ 37%Z :: q) + 2)%nat [] (37 :: q) args cbuf [] C) as (f' & cb & ss & L & Cb & P & E); [rewrite app_length; lia|].
  exists ss. split; [exact P|]. cbn [app] in E. change (zlen []) with 0 in E. rewrite E. rewrite app_length in L. cbn [length] in L. destruct f' as [|[|f']]; [lia|lia|]. cbn [Z.add]. remember (S f') as g. cbn [fmt_loop negb]. rewrite zread_at by reflexivity. cbn [bind Z.eqb Pos.eqb]. subst g. apply H.
Qed.
Lemma text_run_items items r cbuf : Forall supported items -> zlen cbuf = 32 ->
  exists ss, Forall2 prints items ss /\ text_run (concat (map item_fmt items) ++ 0 :: r) (concat (map item_args items)) cbuf = Ret (false, concat ss).
Proof.
  intros H C. unfold text_run. destruct (items_run items H (2 * length (concat (map item_fmt items) ++ 0 :: r) + 2) [] r [] cbuf [] C) as (ss & P & E).
  - rewrite app_length. lia.
  - exists ss. split; [exact P|]. rewrite app_nil_r in E. exact E.
Qed.
(** the text C prints is unique *)
Lemma repr_fun b n ds ds' : 2 <= b -> is_repr b n ds -> is_repr b n ds' -> ds = ds'.
Proof. intros Hb R R'. eapply repr_unique; eauto. Qed.
Lemma prints_fun i s s' : prints i s -> prints i s' -> s = s'.
Proof.
  assert (X : forall p cv v, number_text p cv v s -> number_text p cv v s' -> s = s').
  { intros p cv v (ds & R & ->) (ds' & R' & ->). rewrite (repr_fun (conv_base cv) _ ds ds' ltac:(destruct cv; cbn; lia) R R'). reflexivity. }
  destruct i as [c| |s0 rest|c|pr m cv v|v]; cbn [prints]; try congruence; [destruct pr|]; apply X.
Qed.
