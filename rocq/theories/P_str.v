(** Proofs about the string helpers. *)
From Verif Require Import Base Bits Cstr S_num S_hex M_hex M_str S_str.
Ltac Zify.zify_post_hook ::= Z.div_mod_to_equations.

Ltac nonr := exists None; split; [reflexivity|exact I].
(** ---------- character classes: all 256 bytes ---------- *)
Lemma switch1_range L lo hi c : (forall x, In x L <-> lo <= x <= hi) -> switch1 L c = if (lo <=? c) && (c <=? hi) then 1 else 0.
Proof.
  intros H. unfold switch1. destruct (existsb _ L) eqn:E.
  - apply existsb_exists in E as [x [Hx Ex]]. apply H in Hx. now replace (_ && _) with true by lia.
  - destruct ((lo <=? c) && (c <=? hi)) eqn:E2; [|reflexivity]. exfalso.
    assert (existsb (fun x => x =? c) L = true) by (apply existsb_exists; exists c; split; [apply H; lia|lia]). congruence.
Qed.
Lemma UC_in x : In x UC <-> 65 <= x <= 90. Proof. unfold UC. cbn [In]. lia. Qed.
Lemma LC_in x : In x LC <-> 97 <= x <= 122. Proof. unfold LC. cbn [In]. lia. Qed.
Lemma NUMS_in x : In x NUMS <-> 48 <= x <= 57. Proof. unfold NUMS. cbn [In]. lia. Qed.
Lemma isUpper_eq c : isUpper c = if (65 <=? c) && (c <=? 90) then 1 else 0. Proof. apply switch1_range, UC_in. Qed.
Lemma isLower_eq c : isLower c = if (97 <=? c) && (c <=? 122) then 1 else 0. Proof. apply switch1_range, LC_in. Qed.
Lemma isNumber_eq c : isNumber c = if (48 <=? c) && (c <=? 57) then 1 else 0. Proof. apply switch1_range, NUMS_in. Qed.
Lemma switch1_1 L c : switch1 L c = 1 <-> In c L.
Proof.
  unfold switch1. destruct (existsb _ L) eqn:E.
  - apply existsb_exists in E as [x [Hx Ex]]. assert (x = c) by lia. subst. tauto.
  - split; [discriminate|]. intros H. assert (existsb (fun x => x =? c) L = true) by (apply existsb_exists; exists c; split; [assumption|lia]). congruence.
Qed.
Lemma switch1_01 L c : switch1 L c = 0 \/ switch1 L c = 1.
Proof. unfold switch1. destruct (existsb _ L); auto. Qed.
Lemma classes c :
  (isUpper c = 1 <-> upper_letter c) /\ (isLower c = 1 <-> lower_letter c) /\ (isNumber c = 1 <-> decimal_digit c) /\
  (isLetter c = 1 <-> upper_letter c \/ lower_letter c) /\ (isAlpha c = 1 <-> upper_letter c \/ lower_letter c \/ decimal_digit c).
Proof.
  unfold isUpper, isLower, isNumber, isLetter, isAlpha. rewrite !switch1_1, !in_app_iff, UC_in, LC_in, NUMS_in.
  unfold upper_letter, lower_letter, decimal_digit. repeat split; lia.
Qed.
Lemma makes c : byte c ->
  makelower c = (if (65 <=? c) && (c <=? 90) then c + 32 else c) /\ makeupper c = to_upper c /\
  (lower_letter c -> makelower (makeupper c) = c) /\ (upper_letter c -> makeupper (makelower c) = c).
Proof.
  unfold byte, lower_letter, upper_letter, to_upper. intros H. unfold makelower, makeupper.
  repeat rewrite (switch1_range UC 65 90) by apply UC_in. repeat rewrite (switch1_range LC 97 122) by apply LC_in. unfold u8.
  destruct ((65 <=? c) && (c <=? 90)) eqn:?, ((97 <=? c) && (c <=? 122)) eqn:?; cbn [Z.eqb Pos.eqb];
    repeat split; intros; try match goal with |- context [if (if ?b then _ else _) =? 1 then _ else _] => destruct b eqn:?; cbn [Z.eqb Pos.eqb] end; lia.
Qed.

Lemma containsChar_loop_ok s : forall fuel pre rest what, nz s -> what <> 0 -> (length s < fuel)%nat ->
  (containsChar_loop fuel (pre ++ s ++ 0 :: rest) (zlen pre) what = Ret 1 /\ In what s) \/
  (containsChar_loop fuel (pre ++ s ++ 0 :: rest) (zlen pre) what = Ret 0 /\ ~ In what s).
Proof.
  induction s as [|c s IH]; intros fuel pre rest what Hnz Hw Hf; (destruct fuel as [|fuel]; [cbn in Hf; lia|]); cbn [app containsChar_loop];
    rewrite zread_at by reflexivity; cbn [bind].
  - right. split; [reflexivity|intros []].
  - apply nz_cons in Hnz as [Hc Hnz]. replace (c =? 0) with false by lia. destruct (c =? what) eqn:E.
    + left. split; [reflexivity|left; lia].
    + cbn [length] in Hf. specialize (IH fuel (pre ++ [c]) rest what Hnz Hw ltac:(lia)). rewrite <- app_assoc in IH. cbn [app] in IH.
      zl. replace (zlen pre + (1 + 0)) with (zlen pre + 1) in IH by lia.
      destruct IH as [[H1 H2]|[H1 H2]]; rewrite H1; [left|right]; (split; [reflexivity|]).
      * now right.
      * intros [?|?]; [lia|contradiction].
Qed.
Lemma containsChar_ok s rest what : nz s -> what <> 0 ->
  (containsChar (s ++ 0 :: rest) what = Ret 1 /\ In what s) \/ (containsChar (s ++ 0 :: rest) what = Ret 0 /\ ~ In what s).
Proof. intros Hnz Hw. apply (containsChar_loop_ok s _ [] rest); auto. rewrite app_length. lia. Qed.
Lemma containsChar_nul s rest : nz s -> containsChar (s ++ 0 :: rest) 0 = Ret 0.
Proof.
  intros Hnz. unfold containsChar. assert (HG : forall fuel pre, (length s < fuel)%nat -> containsChar_loop fuel (pre ++ s ++ 0 :: rest) (zlen pre) 0 = Ret 0).
  { induction s as [|c s IH]; intros fuel pre Hf; (destruct fuel as [|fuel]; [cbn in Hf; lia|]); cbn [app containsChar_loop];
    rewrite zread_at by reflexivity; cbn [bind]; [reflexivity|].
    apply nz_cons in Hnz as [Hc Hnz]. replace (c =? 0) with false by lia. cbn [length] in Hf.
    specialize (IH Hnz fuel (pre ++ [c]) ltac:(lia)). rewrite <- app_assoc in IH. cbn [app] in IH. zl.
    now replace (zlen pre + (1 + 0)) with (zlen pre + 1) in IH by lia. }
  apply (HG _ []). rewrite app_length. lia.
Qed.

Lemma streq_at_ok a : forall b fuel p q ra rb, nz a -> nz b -> (length a < fuel)%nat ->
  streq_at fuel (p ++ a ++ 0 :: ra) (q ++ b ++ 0 :: rb) (zlen p) (zlen q) = Ret (if list_eq_dec Z.eq_dec a b then true else false).
Proof.
  induction a as [|x a IH]; intros b fuel p q ra rb Ha Hb Hf; (destruct fuel as [|fuel]; [cbn in Hf; lia|]); cbn [streq_at app].
  - rewrite zread_at by reflexivity. cbn [bind]. destruct b as [|y b]; cbn [app]; rewrite zread_at by reflexivity; cbn [bind].
    + change (0 =? 0) with true. cbv iota. now destruct (list_eq_dec Z.eq_dec [] []).
    + apply nz_cons in Hb as [Hy _]. replace (0 =? y) with false by lia. now destruct (list_eq_dec Z.eq_dec [] (y :: b)).
  - apply nz_cons in Ha as [Hx Ha]. rewrite zread_at by reflexivity. cbn [bind].
    destruct b as [|y b]; cbn [app]; rewrite zread_at by reflexivity; cbn [bind].
    + replace (x =? 0) with false by lia. now destruct (list_eq_dec Z.eq_dec (x :: a) []).
    + apply nz_cons in Hb as [Hy Hb]. destruct (x =? y) eqn:E.
      * assert (x = y) by lia. subst y. replace (x =? 0) with false by lia. cbn [length] in Hf.
        specialize (IH b fuel (p ++ [x]) (q ++ [x]) ra rb Ha Hb ltac:(lia)). rewrite <- !app_assoc in IH. cbn [app] in IH. zl.
        replace (zlen p + (1 + 0)) with (zlen p + 1) in IH by lia. replace (zlen q + (1 + 0)) with (zlen q + 1) in IH by lia. rewrite IH.
        destruct (list_eq_dec Z.eq_dec a b), (list_eq_dec Z.eq_dec (x :: a) (x :: b)); congruence.
      * destruct (list_eq_dec Z.eq_dec (x :: a) (y :: b)) as [[=]|]; [lia|reflexivity].
Qed.
Lemma strends_ok a b ra rb : nz a -> nz b ->
  (strends (a ++ 0 :: ra) (b ++ 0 :: rb) = Ret 1 /\ exists p, a = p ++ b) \/
  (strends (a ++ 0 :: ra) (b ++ 0 :: rb) = Ret 0 /\ ~ exists p, a = p ++ b).
Proof.
  intros Ha Hb. unfold strends. rewrite !strlen_0 by assumption. cbn [bind]. zpos.
  destruct (zlen b <=? zlen a) eqn:E.
  - destruct (zsplit (zlen a - zlen b) a) as [p [t [-> Hp]]]; [lia|]. rewrite <- Hp. rewrite <- app_assoc.
    assert (Ht : nz t) by (apply nz_app in Ha; tauto).
    pose proof (streq_at_ok t b (S (length (p ++ t ++ 0 :: ra))) p [] ra rb Ht Hb) as H. cbn [app] in H. change (zlen []) with 0 in H.
    rewrite H by (rewrite !app_length; lia). cbn [bind].
    destruct (list_eq_dec Z.eq_dec t b) as [->|Hne]; [left|right]; (split; [reflexivity|]); [eauto|].
    intros [p' Hp']. apply Hne.
    assert (HL : zlen p' = zlen p). { assert (HL : zlen (p ++ t) = zlen (p' ++ b)) by congruence. zl. lia. }
    apply (f_equal (zdrop (zlen p))) in Hp'. rewrite zdrop_app_exact in Hp'. rewrite Hp', <- HL. apply zdrop_app_exact.
  - right. split; [reflexivity|]. intros [p ->]. zl. zpos. lia.
Qed.

(** ---------- searching ---------- *)
Lemma Forall2_len {A B} (R : A -> B -> Prop) l m : Forall2 R l m -> zlen l = zlen m.
Proof. induction 1; [reflexivity|]. zl. lia. Qed.

Section Find.
Variables (eq : Z -> Z -> bool) (R : Z -> Z -> Prop).
Hypothesis HR : forall h n, eq h n = true <-> R h n.

Lemma find_inner_ok : forall nd t pre rest ndpre ndrest, nz t ->
  (exists m q, t = m ++ q /\ Forall2 R m nd /\
     find_inner eq (length nd) (pre ++ t ++ 0 :: rest) (ndpre ++ nd ++ ndrest) (zlen pre) (zlen ndpre) = Ret (Some true, zlen pre + zlen m)) \/
  (exists m x q, t = m ++ x :: q /\ (~ exists m' q', t = m' ++ q' /\ Forall2 R m' nd) /\
     find_inner eq (length nd) (pre ++ t ++ 0 :: rest) (ndpre ++ nd ++ ndrest) (zlen pre) (zlen ndpre) = Ret (Some false, zlen pre + zlen m) /\
     (forall n0 nd', nd = n0 :: nd' -> forall y t', t = y :: t' -> ~ R y n0 -> m = [])) \/
  ((~ exists m' q', t = m' ++ q' /\ Forall2 R m' nd) /\ zlen t < zlen nd /\ (forall n0 nd' y t', nd = n0 :: nd' -> t = y :: t' -> R y n0) /\
     find_inner eq (length nd) (pre ++ t ++ 0 :: rest) (ndpre ++ nd ++ ndrest) (zlen pre) (zlen ndpre) = Ret (None, zlen pre + zlen t)).
Proof.
  induction nd as [|n nd IH]; intros t pre rest ndpre ndrest Hnz.
  - left. exists [], t. split; [reflexivity|]. split; [constructor|]. cbn [length find_inner]. change (zlen []) with 0. tup.
  - destruct t as [|c t]; cbn [length find_inner app].
    + right. right. rewrite zread_at by reflexivity. cbn [bind]. change (0 =? 0) with true. cbv iota. split.
      * intros [m' [q' [E1 E2]]]. inversion E2; subst. discriminate.
      * split; [zl; zpos; lia|]. split; [intros; discriminate|]. change (zlen []) with 0. tup.
    + apply nz_cons in Hnz as [Hc Hnz]. rewrite !zread_at by reflexivity. cbn [bind]. replace (c =? 0) with false by lia.
      destruct (eq c n) eqn:E.
      * assert (HRc : R c n) by (now apply HR).
        specialize (IH t (pre ++ [c]) rest (ndpre ++ [n]) ndrest Hnz). rewrite <- !app_assoc in IH. cbn [app] in IH. zl.
        replace (zlen pre + (1 + 0)) with (zlen pre + 1) in IH by lia. replace (zlen ndpre + (1 + 0)) with (zlen ndpre + 1) in IH by lia.
        destruct IH as [[m [q [E1 [E2 E3]]]]|[[m [x [q [E1 [E2 [E3 E4]]]]]]|[E1 [E2 [E3 E4]]]]].
        -- left. exists (c :: m), q. subst t. split; [reflexivity|]. split; [now constructor|]. rewrite E3. tup.
        -- right. left. exists (c :: m), x, q. subst t. split; [reflexivity|]. split.
           ++ intros [m' [q' [F1 F2]]]. inversion F2; subst. cbn [app] in F1. injection F1 as -> F1. apply E2. eauto.
           ++ rewrite E3. split; [tup|]. intros n0 nd' [=] y t' [=] Hn. subst. contradiction.
        -- right. right. split.
           ++ intros [m' [q' [F1 F2]]]. inversion F2; subst. cbn [app] in F1. injection F1 as -> F1. apply E1. eauto.
           ++ split; [lia|]. split; [intros n0 nd' y t' [=] [=]; now subst|]. rewrite E4. tup.
      * right. left. exists [], c, t. split; [reflexivity|]. split.
        -- intros [m' [q' [F1 F2]]]. inversion F2; subst. cbn [app] in F1. injection F1 as -> F1. apply HR in H2. congruence.
        -- change (zlen []) with 0. split; [tup|]. reflexivity.
Qed.

(** sound, terminating *)
Lemma find_sound (nd ndrest : list Z) : nd <> [] -> forall fuel t pre rest, nz t -> (length t < fuel)%nat ->
  exists r, find_loop eq fuel (pre ++ t ++ 0 :: rest) (nd ++ ndrest) (zlen nd) (zlen pre) = Ret r /\
    match r with None => True | Some k => exists p m q, t = p ++ m ++ q /\ zlen pre + zlen p = k /\ Forall2 R m nd end.
Proof.
  intros Hne. induction fuel as [|fuel IH]; intros t pre rest Hnz Hf; [lia|]. cbn [find_loop].
  destruct t as [|c t]; cbn [app]; rewrite zread_at by reflexivity; cbn [bind].
  - change (0 =? 0) with true. cbv iota. nonr.
  - pose proof Hnz as Hnz0. apply nz_cons in Hnz as [Hc Hnz]. replace (c =? 0) with false by lia.
    replace (Z.to_nat (zlen nd)) with (length nd) by (unfold zlen; lia).
    pose proof (find_inner_ok nd (c :: t) pre rest [] ndrest Hnz0) as HI. cbn [app] in HI. change (zlen []) with 0 in HI.
    destruct HI as [[m [q [E1 [E2 E3]]]]|[[m [x [q [E1 [E2 [E3 _]]]]]]|[E1 [_ [_ E4]]]]].
    + rewrite E3. cbn [bind]. eexists. split; [reflexivity|]. exists [], m, q. rewrite E1. split; [reflexivity|]. change (zlen []) with 0. split; [lia|assumption].
    + rewrite E3. cbn [bind].
      assert (EQ : pre ++ c :: t ++ 0 :: rest = (pre ++ m ++ [x]) ++ q ++ 0 :: rest).
      { change (c :: t ++ 0 :: rest) with ((c :: t) ++ 0 :: rest). rewrite E1, <- !app_assoc. reflexivity. }
      rewrite EQ. replace (zlen pre + zlen m + 1) with (zlen (pre ++ m ++ [x])) by (zl; lia).
      destruct (IH q (pre ++ m ++ [x]) rest) as [r [F1 F2]].
      * rewrite E1 in Hnz0. apply nz_app in Hnz0 as [_ Hnz0]. apply nz_cons in Hnz0. tauto.
      * apply (f_equal (@length Z)) in E1. rewrite app_length in E1. cbn [length] in E1, Hf. lia.
      * exists r. split; [assumption|]. destruct r as [k|]; [|exact I]. destruct F2 as [p [m' [q' [G1 [G2 G3]]]]].
        exists (m ++ x :: p), m', q'. split; [rewrite E1, G1, <- app_assoc; reflexivity|]. split; [zl; lia|assumption].
    + rewrite E4. cbn [bind]. nonr.
Qed.

(** an occurrence before which nothing matches the needle's first byte is found *)
Lemma find_first n0 nd' ndrest : forall p fuel m q pre rest,
  nz (p ++ m ++ q) -> (length (p ++ m ++ q) < fuel)%nat -> Forall (fun c => ~ R c n0) p -> Forall2 R m (n0 :: nd') ->
  find_loop eq fuel (pre ++ (p ++ m ++ q) ++ 0 :: rest) ((n0 :: nd') ++ ndrest) (zlen (n0 :: nd')) (zlen pre) = Ret (Some (zlen pre + zlen p)).
Proof.
  intros p. induction p as [|c p IH]; intros fuel m q pre rest Hnz Hf HF HM; (destruct fuel as [|fuel]; [lia|]).
  - remember (n0 :: nd') as nd eqn:End. cbn [find_loop]. destruct m as [|c m]; [inversion HM; subst; discriminate|].
    change ([] ++ (c :: m) ++ q) with (c :: (m ++ q)) in *. pose proof Hnz as Hnz0. apply nz_cons in Hnz0 as [Hc _].
    change (pre ++ (c :: m ++ q) ++ 0 :: rest) with (pre ++ c :: ((m ++ q) ++ 0 :: rest)). rewrite zread_at by reflexivity. cbn [bind]. replace (c =? 0) with false by lia.
    replace (Z.to_nat (zlen nd)) with (length nd) by (unfold zlen; lia).
    pose proof (find_inner_ok nd (c :: m ++ q) pre rest [] ndrest Hnz) as HI. cbn [app] in HI. change (zlen []) with 0 in HI.
    assert (HEx : exists m' q', c :: m ++ q = m' ++ q' /\ Forall2 R m' nd) by (exists (c :: m), q; auto).
    destruct HI as [[m' [q' [E1 [E2 E3]]]]|[[m' [x [q' [E1 [E2 _]]]]]|[E1 _]]]; try contradiction.
    rewrite E3. cbn [bind]. change (zlen []) with 0. tup.
  - remember (n0 :: nd') as nd eqn:End. cbn [find_loop]. cbn [app] in *. apply Forall_cons_iff in HF as [Hc HF].
    rewrite zread_at by reflexivity. cbn [bind]. pose proof Hnz as Hnz0. apply nz_cons in Hnz0 as [Hc0 Hnz0]. replace (c =? 0) with false by lia.
    replace (Z.to_nat (zlen nd)) with (length nd) by (unfold zlen; lia).
    pose proof (find_inner_ok nd (c :: p ++ m ++ q) pre rest [] ndrest Hnz) as HI. cbn [app] in HI. change (zlen []) with 0 in HI.
    destruct HI as [[m' [q' [E1 [E2 E3]]]]|[[m' [x [q' [E1 [E2 [E3 E4]]]]]]|[E1 [_ [E2 _]]]]].
    + exfalso. subst nd. inversion E2; subst. cbn [app] in E1. injection E1 as -> _. contradiction.
    + rewrite (E4 n0 nd' End c _ eq_refl Hc) in *. rewrite E3. cbn [bind]. change (zlen []) with 0.
      cbn [length] in Hf. specialize (IH fuel m q (pre ++ [c]) rest Hnz0 ltac:(lia) HF HM). rewrite <- app_assoc in IH. cbn [app] in IH. zl.
      replace (zlen pre + (1 + 0)) with (zlen pre + 1) in IH by lia. rewrite Z.add_0_r. rewrite IH. tup.
    + exfalso. apply Hc. eapply E2; eauto.
Qed.
End Find.

Lemma uc_eq_ok h n : uc_eq h n = true <-> uc_match h n.
Proof. unfold uc_eq, uc_match, to_upper. rewrite isLower_eq. destruct ((97 <=? h) && (h <=? 122)); cbn [Z.eqb Pos.eqb]; lia. Qed.
Lemma star_eq_ok h n : star_eq h n = true <-> star_match h n.
Proof. unfold star_eq, star_match. lia. Qed.

(** first position satisfying a decidable predicate *)
Lemma first_split (P : Z -> bool) (t : list Z) : (exists p x q, t = p ++ x :: q /\ P x = true /\ Forall (fun c => P c = false) p) \/ Forall (fun c => P c = false) t.
Proof.
  induction t as [|c t IH]; [right; constructor|]. destruct (P c) eqn:E; [left; exists [], c, t; auto|].
  destruct IH as [[p [x [q [-> [H1 H2]]]]]|H]; [left; exists (c :: p), x, q; split; [reflexivity|]; auto|right; constructor; auto].
Qed.

Section Api.
Variables (eq : Z -> Z -> bool) (R : Z -> Z -> Prop).
Hypothesis HR : forall h n, eq h n = true <-> R h n.
Definition find (hay needle : list Z) (needlesize : Z) : out (option Z) :=
  if needlesize =? 0 then Ret None else find_loop eq (S (length hay)) hay needle needlesize 0.

Lemma find_api_sound text rest nd ndrest : nz text ->
  exists r, find (text ++ 0 :: rest) (nd ++ ndrest) (zlen nd) = Ret r /\
    match r with None => True | Some k => nd <> [] /\ occurs R text nd k end.
Proof.
  intros Hnz. unfold find. destruct nd as [|n nd]; [exists None; auto|]. zl. zpos. replace (1 + zlen nd =? 0) with false by lia.
  destruct (find_sound eq R HR (n :: nd) ndrest ltac:(discriminate) (S (length (text ++ 0 :: rest))) text [] rest Hnz) as [r [E1 E2]].
  { rewrite app_length. lia. }
  cbn [app] in E1. change (zlen []) with 0 in E1. rewrite zlen_cons in E1. cbn [app]. rewrite E1. exists r. split; [reflexivity|].
  destruct r as [k|]; [|exact I]. split; [discriminate|]. destruct E2 as [p [m [q [-> [G2 G3]]]]]. exists p, m, q. change (zlen []) with 0 in G2. auto.
Qed.
Lemma find_api_first p m q rest n0 nd ndrest : nz (p ++ m ++ q) -> Forall (fun c => ~ R c n0) p -> Forall2 R m (n0 :: nd) ->
  find ((p ++ m ++ q) ++ 0 :: rest) ((n0 :: nd) ++ ndrest) (zlen (n0 :: nd)) = Ret (Some (zlen p)).
Proof.
  intros Hnz HF HM. unfold find. replace (zlen (n0 :: nd) =? 0) with false by (zl; zpos; lia).
  pose proof (find_first eq R HR n0 nd ndrest p (S (length ((p ++ m ++ q) ++ 0 :: rest))) m q [] rest Hnz) as H.
  cbn [app] in H. change (zlen []) with 0 in H. cbn [app]. rewrite H; auto. rewrite (app_length (p ++ m ++ q)). lia.
Qed.
Lemma find_api_char text rest n0 ndrest : nz text ->
  (exists p x q, text = p ++ x :: q /\ R x n0 /\ Forall (fun c => ~ R c n0) p /\ find (text ++ 0 :: rest) ([n0] ++ ndrest) 1 = Ret (Some (zlen p))) \/
  (Forall (fun c => ~ R c n0) text /\ find (text ++ 0 :: rest) ([n0] ++ ndrest) 1 = Ret None).
Proof.
  intros Hnz. assert (HN : forall t, Forall (fun c => eq c n0 = false) t -> Forall (fun c => ~ R c n0) t).
  { intros t HF. eapply Forall_impl; [|exact HF]. cbn. intros a Ha Hr. apply HR in Hr. congruence. }
  destruct (first_split (fun c => eq c n0) text) as [[p [x [q [-> [Hx HF]]]]]|HF].
  - left. exists p, x, q. split; [reflexivity|]. apply HR in Hx. split; [assumption|]. split; [now apply HN|].
    apply (find_api_first p [x] q rest n0 [] ndrest); auto.
  - right. split; [now apply HN|]. destruct (find_api_sound text rest [n0] ndrest Hnz) as [r [E1 E2]]. change (zlen [n0]) with 1 in E1. rewrite E1.
    destruct r as [k|]; [|reflexivity]. exfalso. destruct E2 as [_ [p [m [q [-> [_ HM]]]]]]. inversion HM as [|x ? ? ? Hx HT]; subst. inversion HT; subst.
    apply HN in HF. apply Forall_app in HF as [_ HF]. cbn [app] in HF. apply Forall_cons_iff in HF. tauto.
Qed.
End Api.

(** ---------- findword ---------- *)
Lemma lead_ok c : isLeadingWhitespace c = true <-> sep_before c.
Proof.
  unfold isLeadingWhitespace, sep_before. rewrite existsb_exists. split.
  - intros [x [Hx E]]. assert (x = c) by lia. now subst.
  - intros H. exists c. split; [assumption|lia].
Qed.
Lemma trail_ok c : isTrailingWhitespace c = true <-> sep_after c.
Proof.
  unfold isTrailingWhitespace, sep_after. rewrite orb_true_iff, lead_ok. unfold sep_before. cbn [In]. lia.
Qed.
Lemma findword_loop_ok text rest nd ndrest : nz text -> nd <> [] -> forall fuel buf res,
  0 <= buf <= zlen text -> 0 <= res <= zlen text -> zlen text - buf < Z.of_nat fuel ->
  (buf = 0 \/ occurs uc_match text nd (buf - 1)) ->
  exists r, findword_loop fuel (text ++ 0 :: rest) (nd ++ ndrest) (zlen nd) buf res = Ret r /\
    match r with None => True | Some k => occurs uc_match text nd k /\ ends_word text (k + zlen nd) /\
      (starts_word text k \/ occurs uc_match text nd (k - 1)) end.
Proof.
  intros Hnz Hne. induction fuel as [|fuel IH]; intros buf res Hb Hr Hf Hbuf; [lia|]. cbn [findword_loop].
  rewrite (zread_ok 0) by (zl; zpos; lia). cbn [bind]. destruct (_ =? 0); [nonr|].
  unfold strstr_uc_from. replace (zlen nd =? 0) with false by (destruct nd; [congruence|zl; zpos; lia]).
  destruct (zsplit buf text) as [pre [t [Et Hp]]]; [lia|].
  assert (Hnt : nz t) by (rewrite Et in Hnz; apply nz_app in Hnz; tauto).
  destruct (find_sound uc_eq uc_match uc_eq_ok nd ndrest Hne (S (length (text ++ 0 :: rest))) t pre rest Hnt) as [r [E1 E2]].
  { rewrite Et, !app_length. lia. }
  rewrite app_assoc, <- Et, Hp in E1. rewrite E1. cbn [bind].
  destruct r as [k|]; [|nonr]. destruct E2 as [p [m [q [G1 [G2 G3]]]]].
  assert (HO : occurs uc_match text nd k). { exists (pre ++ p), m, q. rewrite Et, G1, <- !app_assoc. split; [reflexivity|]. split; [zl; lia|assumption]. }
  assert (HLm : zlen m = zlen nd) by (eapply Forall2_len; eauto).
  assert (Hnd : 0 < zlen nd) by (destruct nd; [congruence|zl; zpos; lia]).
  assert (Hk : buf <= k /\ k + zlen nd <= zlen text). { rewrite Et, G1. zl. zpos. lia. }
  assert (HS : forall b : bool, b = true -> k <> buf -> b = isLeadingWhitespace (znth 0 (text ++ 0 :: rest) (k - 1)) -> starts_word text k).
  { intros b -> Hkb Hl. right. rewrite znth_app1 in Hl by lia. symmetry in Hl. apply lead_ok in Hl.
    exists (ztake (k - 1) text), (znth 0 text (k - 1)), (zdrop (k - 1 + 1) text). split; [apply zsplit1; lia|]. split; [apply zlen_ztake; lia|assumption]. }
  assert (HA : exists a, (if k =? buf then Ret true else let* p := zread (text ++ 0 :: rest) (k - 1) in Ret (isLeadingWhitespace p)) = Ret a /\
     (a = true -> starts_word text k \/ occurs uc_match text nd (k - 1))).
  { destruct (k =? buf) eqn:Ek.
    - exists true. split; [reflexivity|]. intros _. assert (k = buf) by lia. subst k. destruct Hbuf as [->|Ho]; [left; left; lia|right; now rewrite H].
    - rewrite (zread_ok 0) by (zl; zpos; lia). cbn [bind]. eexists. split; [reflexivity|]. intros Hl. left. eapply HS; [exact Hl|lia|reflexivity]. }
  destruct HA as [a [-> Ha]]. cbn [bind].
  destruct a; cbn [bind].
  - rewrite (zread_ok 0) by (zl; zpos; lia). cbn [bind]. destruct (_ || _) eqn:Ee.
    + eexists. split; [reflexivity|]. cbn. split; [assumption|]. split; [|auto].
      destruct (Z.eq_dec (k + zlen nd) (zlen text)) as [|Hlt]; [left; assumption|right].
      rewrite znth_app1 in Ee by lia. exists (ztake (k + zlen nd) text), (znth 0 text (k + zlen nd)), (zdrop (k + zlen nd + 1) text).
      split; [apply zsplit1; lia|]. split; [apply zlen_ztake; lia|]. apply orb_true_iff in Ee as [Ee|Ee]; [|now apply trail_ok].
      exfalso. pose proof (Forall_znth _ 0 text (k + zlen nd) Hnz ltac:(lia)). cbn in H. lia.
    + apply IH; try lia. right. now replace (k + 1 - 1) with k by lia.
  - apply IH; try lia. right. now replace (k + 1 - 1) with k by lia.
Qed.
Lemma findword_ok text rest nd ndrest : nz text ->
  exists r, findword (text ++ 0 :: rest) (nd ++ ndrest) (zlen nd) = Ret r /\
    match r with None => True | Some k => occurs uc_match text nd k /\ ends_word text (k + zlen nd) /\
      (starts_word text k \/ occurs uc_match text nd (k - 1)) end.
Proof.
  intros Hnz. destruct nd as [|n nd].
  - unfold findword. cbn [findword_loop]. rewrite (zread_ok 0) by (zl; zpos; lia). cbn [bind]. destruct (_ =? 0); [nonr|]. exists None. split; reflexivity.
  - unfold findword. apply findword_loop_ok; auto; try discriminate; zpos; try lia. rewrite app_length. unfold zlen. cbn [length]. lia.
Qed.
(** two occurrences shifted by one make all bytes of the needle equal *)
Lemma occurs_znth text nd k : occurs uc_match text nd k -> forall i, 0 <= i < zlen nd -> 0 <= k /\ to_upper (znth 0 text (k + i)) = znth 0 nd i.
Proof.
  intros [p [m [q [-> [<- HM]]]]] i Hi. zpos. split; [lia|].
  assert (HL : zlen m = zlen nd) by (eapply Forall2_len; eauto).
  rewrite znth_app2 by lia. replace (zlen p + i - zlen p) with i by lia. rewrite znth_app1 by lia.
  clear - HM Hi. revert i Hi. induction HM as [|a b m nd Hab HM IH]; intros i Hi; [zl; cbn in Hi; lia|].
  destruct (Z.eq_dec i 0) as [->|]; [exact Hab|]. zl. rewrite !znth_consS by lia. apply IH. lia.
Qed.
Lemma shifted_equal text nd k : occurs uc_match text nd k -> occurs uc_match text nd (k - 1) -> forall a b, In a nd -> In b nd -> a = b.
Proof.
  intros H1 H2. assert (HE : forall j : nat, Z.of_nat j < zlen nd -> znth 0 nd (Z.of_nat j) = znth 0 nd 0).
  { induction j as [|j IH]; intros Hj; [reflexivity|]. rewrite <- IH by lia.
    destruct (occurs_znth _ _ _ H1 (Z.of_nat j) ltac:(lia)) as [_ E1]. destruct (occurs_znth _ _ _ H2 (Z.of_nat (S j)) ltac:(lia)) as [_ E2].
    rewrite <- E1, <- E2. do 2 f_equal. lia. }
  intros a b Ha Hb. destruct (In_znth 0 nd a Ha) as [i [Hi <-]]. destruct (In_znth 0 nd b Hb) as [j [Hj <-]].
  rewrite <- (Z2Nat.id i), <- (Z2Nat.id j) by lia. rewrite !HE by lia. reflexivity.
Qed.
Lemma findword_whole text rest nd ndrest a b : nz text -> In a nd -> In b nd -> a <> b ->
  exists r, findword (text ++ 0 :: rest) (nd ++ ndrest) (zlen nd) = Ret r /\
    match r with None => True | Some k => occurs uc_match text nd k /\ starts_word text k /\ ends_word text (k + zlen nd) end.
Proof.
  intros Hnz Ha Hb Hab. destruct (findword_ok text rest nd ndrest Hnz) as [r [E1 E2]]. exists r. split; [assumption|].
  destruct r as [k|]; [|exact I]. destruct E2 as [H1 [H2 [H3|H3]]]; [auto|]. exfalso. exact (Hab (shifted_equal text nd k H1 H3 a b Ha Hb)).
Qed.

(** ---------- strdup_n ---------- *)
Lemma strdup_n_ok str rest : nz str -> str <> [] -> strdup_n true (str ++ 0 :: rest) (zlen str) = Ret (Some (str ++ [0])).
Proof.
  intros Hnz Hne. unfold strdup_n. replace (zlen str =? 0) with false by (destruct str; [congruence|zl; zpos; lia]).
  change (0 :: rest) with ([0] ++ rest). rewrite app_assoc. change ((str ++ [0]) ++ rest) with ([] ++ (str ++ [0]) ++ rest).
  rewrite zreads_at; [reflexivity|reflexivity|zl; lia].
Qed.
Lemma strdup_n_copies ok str n : 0 < n < zlen str -> strdup_n ok str n = Ret (if ok then Some (ztake n str ++ [znth 0 str n]) else None).
Proof.
  intros Hn. unfold strdup_n. replace (n =? 0) with false by lia. destruct ok; [|reflexivity].
  rewrite zreads_ok by lia. cbn [bind]. do 2 f_equal. rewrite zdrop_0.
  rewrite (zsplit1 0 n str) at 1 by lia. rewrite ztake_app2 by (rewrite zlen_ztake; lia). rewrite zlen_ztake by lia.
  replace (n + 1 - n) with 1 by lia. reflexivity.
Qed.
Lemma hexval_ok c : (forall v, hexdigit c v -> hexval c = v) /\ ((forall v, ~ hexdigit c v) -> hexval c = 0).
Proof.
  unfold hexval, hexdigit, digit_char. split.
  - intros v [Hv Hc]. destruct (v <? 10) eqn:E.
    + assert (c = 48 + v) by lia. subst. replace ((65 <=? 48 + v) && (48 + v <=? 70)) with false by lia.
      replace ((97 <=? 48 + v) && (48 + v <=? 102)) with false by lia. replace ((48 <=? 48 + v) && (48 + v <=? 57)) with true by lia. lia.
    + replace (v <? 36) with true in Hc by lia. destruct Hc as [-> | ->].
      * repeat match goal with |- context [if ?b then _ else _] => destruct b eqn:? end; lia.
      * repeat match goal with |- context [if ?b then _ else _] => destruct b eqn:? end; lia.
  - intros H. destruct ((65 <=? c) && (c <=? 70)) eqn:E1; [exfalso; apply (H (c - 55)); replace (c - 55 <? 10) with false by lia; replace (c - 55 <? 36) with true by lia; split; [lia|lia]|].
    destruct ((97 <=? c) && (c <=? 102)) eqn:E2; [exfalso; apply (H (c - 87)); replace (c - 87 <? 10) with false by lia; replace (c - 87 <? 36) with true by lia; split; [lia|lia]|].
    destruct ((48 <=? c) && (c <=? 57)) eqn:E3; [exfalso; apply (H (c - 48)); replace (c - 48 <? 10) with true by lia; split; [lia|lia]|]. reflexivity.
Qed.
