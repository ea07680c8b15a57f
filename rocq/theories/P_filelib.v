(** Proofs about filelib. *)
From Verif Require Import Base Bits Cstr M_stringptr M_filelib S_stringptr S_filelib D_stringptr P_stringptr P_spl.

(** ---------- components ---------- *)
Definition no47 (l : list Z) : Prop := ~ In 47 l.
Lemma no47_cons c l : no47 (c :: l) <-> c <> 47 /\ no47 l.
Proof. unfold no47. cbn. intuition congruence. Qed.
Lemma comps_ne t : comps t <> [].
Proof. destruct t as [|c t]; cbn; [congruence|]. destruct (c =? 47); [congruence|]. destruct (comps t); congruence. Qed.
Lemma comps_slash t : comps (47 :: t) = [] :: comps t.
Proof. reflexivity. Qed.
Lemma comps_no47 w : no47 w -> comps w = [w].
Proof.
  induction w as [|c w IH]; [reflexivity|]. intros N. apply no47_cons in N as [Nc N]. cbn [comps]. replace (c =? 47) with false by lia. now rewrite IH.
Qed.
Lemma comps_app w r : no47 w -> comps (w ++ 47 :: r) = w :: comps r.
Proof.
  induction w as [|c w IH]; intros N; [reflexivity|]. apply no47_cons in N as [Nc N]. cbn [comps app]. replace (c =? 47) with false by lia. now rewrite IH.
Qed.
Lemma comps_run k r : comps (repeat 47 k ++ r) = repeat [] k ++ comps r.
Proof. induction k; [reflexivity|]. cbn [repeat app]. rewrite comps_slash. now rewrite IHk. Qed.
Lemma resolve_run st k cl : resolve st (repeat [] k ++ cl) = resolve st cl.
Proof. induction k; [reflexivity|]. exact IHk. Qed.
Lemma run_split (r : list Z) : exists k r', r = repeat 47 k ++ r' /\ (r' = [] \/ exists x q, r' = x :: q /\ x <> 47).
Proof.
  induction r as [|c r (k & r' & -> & H)]; [exists 0%nat, []; auto|]. destruct (Z.eq_dec c 47) as [->|N].
  - exists (S k), r'. auto.
  - exists 0%nat, (c :: repeat 47 k ++ r'). split; [reflexivity|]. right. eauto.
Qed.
Lemma comp_split (r : list Z) : exists w r', r = w ++ r' /\ no47 w /\ (r' = [] \/ exists q, r' = 47 :: q).
Proof.
  induction r as [|c r (w & r' & -> & N & H)]; [exists [], []; split; auto; split; [easy|auto]|]. destruct (Z.eq_dec c 47) as [->|X].
  - exists [], (47 :: w ++ r'). split; [reflexivity|]. split; [easy|]. right. eauto.
  - exists (c :: w), r'. split; [reflexivity|]. split; [|exact H]. now apply no47_cons.
Qed.
Definition plain (w : list Z) : Prop := w <> [] /\ no47 w /\ w <> [46] /\ w <> [46; 46].
Lemma is_true a b : is a b = true <-> a = b.
Proof. unfold is. destruct (list_eq_dec Z.eq_dec a b); intuition congruence. Qed.
Lemma is_false a b : a <> b -> is a b = false.
Proof. unfold is. destruct (list_eq_dec Z.eq_dec a b); congruence. Qed.
Lemma resolve_plain st w cl : plain w -> resolve st (w :: cl) = resolve (w :: st) cl.
Proof. intros (H1 & _ & H2 & H3). cbn [resolve]. now rewrite !is_false. Qed.

(** output for a stack: every component followed by a slash *)
Definition enc (st : list (list Z)) : list Z := 47 :: concat (map (fun c => c ++ [47]) (rev st)).
Lemma enc_cons c st : enc (c :: st) = enc st ++ c ++ [47].
Proof. unfold enc. cbn [rev]. rewrite map_app, concat_app. cbn. now rewrite app_nil_r. Qed.
Lemma enc_last st : exists a, enc st = a ++ [47].
Proof. destruct st as [|c st]; [exists []; reflexivity|]. rewrite enc_cons. exists (enc st ++ c). now rewrite app_assoc. Qed.
Lemma enc_join st : st <> [] -> enc st = (47 :: join [47] (rev st)) ++ [47].
Proof.
  unfold enc. intros N. cbn [app]. f_equal. assert (R : rev st <> []) by (intros E; apply (f_equal (@rev _)) in E; rewrite rev_involutive in E; auto).
  revert R. induction (rev st) as [|c l IH]; [congruence|]. intros _. destruct l as [|d l]; [cbn; now rewrite app_nil_r|].
  rewrite join_cons by congruence. cbn [map concat] in *. rewrite IH by congruence. now rewrite <- !app_assoc.
Qed.
(** what the output may be when the loop ends *)
Definition fin (st : list (list Z)) (O : list Z) : Prop := O = enc st \/ exists c s, st = c :: s /\ O = enc s ++ c.

(** ---------- searching the last slash ---------- *)
Lemma up_loop_ok a : forall c n q, no47 c -> n = length (a ++ 47 :: c) -> up_loop (n - 1) (a ++ 47 :: c ++ q) = Ret (Some (zlen a)).
Proof.
  induction c as [|x c IH] using rev_ind; intros n q N ->.
  - rewrite app_length. cbn [length]. replace (length a + 1 - 1)%nat with (length a) by lia.
    assert (R : zread (a ++ 47 :: [] ++ q) (Z.of_nat (length a)) = Ret 47) by (now apply zread_at).
    destruct (length a) eqn:E; cbn [up_loop]; rewrite R; cbn [bind Z.eqb Pos.eqb]; [|rewrite <- E; reflexivity].
    unfold zlen. now rewrite E.
  - assert (Nc : no47 c) by (intros I; apply N; apply in_or_app; auto). assert (Nx : x <> 47) by (intros ->; apply N; apply in_or_app; right; now left).
    specialize (IH _ ([x] ++ q) Nc eq_refl).
    assert (LL : (length (a ++ 47%Z :: c ++ [x]) - 1 = S (length (a ++ 47%Z :: c) - 1))%nat) by (rewrite !app_length; cbn; rewrite app_length; cbn; lia).
    rewrite LL. cbn [up_loop].
    assert (R : zread (a ++ 47 :: (c ++ [x]) ++ q) (Z.of_nat (S (length (a ++ 47 :: c) - 1))) = Ret x).
    { replace (a ++ 47 :: (c ++ [x]) ++ q) with ((a ++ 47 :: c) ++ x :: q) by (rewrite <- !app_assoc; reflexivity).
      apply zread_at. unfold zlen. rewrite app_length. cbn. lia. }
    rewrite R. cbn [bind]. replace (x =? 47) with false by lia. rewrite <- app_assoc. exact IH.
Qed.
Lemma s8_47 c : byte c -> (s8 c = 47 <-> c = 47).
Proof. unfold byte, s8. lia. Qed.
Lemma find_up_ok cs a c q : bytes (a ++ 47 :: c) -> no47 c -> zlen (a ++ 47 :: c ++ q) < 2 ^ 63 -> find_up cs (a ++ 47 :: c ++ q) (zlen a + 1 + zlen c) = Ret (Some (zlen a)).
Proof.
  intros B N L. unfold find_up. destruct cs.
  - replace (_ =? 0) with false by (zpos; lia). replace (Z.to_nat (zlen a + 1 + zlen c - 1)) with (length (a ++ 47%Z :: c) - 1)%nat.
    + now apply up_loop_ok.
    + rewrite app_length. cbn. unfold zlen. lia.
  - destruct (rchr_ok (mkSp (a ++ 47 :: c ++ q) 0 (zlen a + 1 + zlen c)) (a ++ 47 :: c) 47) as [(p & x & r & E & Ex & F & R)|[F R]].
    + exists [], q. split; [cbn; now rewrite <- app_assoc|]. split; [reflexivity|]. split; [cbn [sz]; zl; lia|exact L].
    + rewrite R. assert (Bx : byte x) by (rewrite E in B; apply bytes_app in B as [_ B]; now apply bytes_cons in B as [B _]).
      apply (s8_47 x Bx) in Ex. subst x. do 2 f_equal.
      assert (NR : no47 r). { intros I. rewrite Forall_forall in F. apply (F _ I). reflexivity. }
      clear -E N NR. revert p E. induction a as [|y a IH]; intros [|z p] E; cbn [app] in E.
      * reflexivity.
      * injection E as <- E. exfalso. apply N. rewrite E. apply in_or_app. right. now left.
      * injection E as -> E. exfalso. apply NR. rewrite <- E. apply in_or_app. right. now left.
      * injection E as -> E. zl. rewrite (IH p E). lia.
    + exfalso. apply Forall_app in F as [_ F]. apply Forall_inv in F. now apply F.
Qed.

Section NP.
Variables (cs : bool) (pre t post : list Z).
Hypothesis Nt : nz t.
Hypothesis Bt : bytes t.
Let pb := pre ++ t ++ 0 :: post.
Let po := zlen pre.
Let T := t ++ [0].

Lemma rd p x q k : T = p ++ x :: q -> k = zlen p -> zread pb (po + k) = Ret x.
Proof.
  intros E ->. unfold pb. replace (pre ++ t ++ 0 :: post) with ((pre ++ p) ++ x :: q ++ post).
  - apply zread_at. unfold po. zl. lia.
  - change (0 :: post) with ([0] ++ post). rewrite (app_assoc t). fold T. rewrite E. now rewrite <- !app_assoc.
Qed.
Lemma rd1 p x y q k : T = p ++ x :: y :: q -> k = zlen p -> zread pb (po + k + 1) = Ret y.
Proof. intros E ->. rewrite <- Z.add_assoc. apply (rd (p ++ [x]) y q); [rewrite E; now rewrite <- app_assoc|zl; lia]. Qed.
Lemma go_step p x q f i ob os : T = p ++ x :: q -> x <> 0 -> i = zlen p ->
  np_loop (S f) cs pb po (zlen t) i ob os =
  (let* s := np_step (S f) cs pb po i ob os in
   match s with Failed => Ret None | Done ob os => Ret (Some (ob, os)) | Next i ob os => np_loop f cs pb po (zlen t) (i + 1) ob os end).
Proof.
  intros E Nx Hi. cbn [np_loop]. rewrite (rd p x q i E Hi). cbn [bind].
  assert (L : i < zlen t).
  { assert (Q : q <> []). { intros ->. unfold T in E. apply app_inj_tail in E as [_ E]. congruence. }
    apply (f_equal zlen) in E. unfold T in E. revert E. zl. destruct q; [congruence|]. zl. zpos. lia. }
  destruct cs; [replace (x =? 0) with false by lia|replace (i <? zlen t) with true by lia]; reflexivity.
Qed.
Lemma go_end f i ob os : i = zlen t -> np_loop (S f) cs pb po (zlen t) i ob os = Ret (Some (ob, os)).
Proof.
  intros ->. cbn [np_loop]. rewrite (rd t 0 [] (zlen t)) by (auto). cbn [bind]. destruct cs; [reflexivity|]. now rewrite Z.ltb_irrefl.
Qed.
Lemma skip_ok : forall k fuel p x q i, T = p ++ 47 :: repeat 47 k ++ x :: q -> x <> 47 -> i = zlen p -> (k < fuel)%nat ->
  skip_slashes fuel pb po i = Ret (i + Z.of_nat k).
Proof.
  induction k as [|k IH]; intros fuel p x q i E Nx Hi Hf; (destruct fuel as [|fuel]; [lia|]); cbn [skip_slashes].
  - rewrite (rd1 p 47 x q i E Hi). cbn [bind]. replace (x =? 47) with false by lia. f_equal. lia.
  - rewrite (rd1 p 47 47 (repeat 47 k ++ x :: q) i E Hi). cbn [bind Z.eqb Pos.eqb].
    rewrite (IH fuel (p ++ [47]) x q (i + 1)); [f_equal; lia|rewrite E; now rewrite <- app_assoc|auto|zl; lia|lia].
Qed.
(** every element of T before the last is a non-zero byte *)
Lemma T_in p x q : T = p ++ x :: q -> q <> [] -> x <> 0 /\ byte x.
Proof.
  intros E Q. destruct (exists_last Q) as (q' & y & ->). unfold T in E. change (p ++ x :: q' ++ [y]) with (p ++ (x :: q') ++ [y]) in E. rewrite app_assoc in E.
  apply app_inj_tail in E as [E _]. split.
  - unfold nz in Nt. rewrite E in Nt. apply Forall_app in Nt as [_ H]. now apply Forall_inv in H.
  - rewrite E in Bt. apply bytes_app in Bt as [_ H]. now apply bytes_cons in H as [H _].
Qed.
Lemma copy_step p x q i O y J os : T = p ++ x :: q -> i = zlen p -> os = zlen O -> np_copy pb po i (O ++ y :: J) os = Ret (Next i (O ++ x :: J) (os + 1)).
Proof. intros E Hi Ho. unfold np_copy. rewrite (rd p x q i E Hi). cbn [bind]. rewrite zwrite_at by auto. reflexivity. Qed.
(** a component after its first character *)
Lemma copy_rest : forall c p r a y J g f, T = p ++ c ++ r -> r <> [] -> no47 c -> y <> 47 -> 1 <= zlen p ->
  zlen (a ++ y :: J) = zlen T -> zlen a + 1 <= zlen p ->
  exists b z J', a ++ y :: c = b ++ [z] /\ z <> 47 /\ zlen (a ++ y :: c ++ J') = zlen T /\
  np_loop (length c + f) cs pb po (zlen t) (zlen p) (a ++ y :: J ++ g) (zlen a + 1) =
  np_loop f cs pb po (zlen t) (zlen p + zlen c) (a ++ y :: c ++ J' ++ g) (zlen a + 1 + zlen c).
Proof.
  induction c as [|x c IH]; intros p r a y J g f E Nr Nc Ny Hp LJ La.
  - exists a, y, J. cbn [app length plus]. change (zlen (@nil Z)) with 0. rewrite !Z.add_0_r. auto.
  - apply no47_cons in Nc as [Nx Nc]. cbn [length plus]. cbn [app] in E.
    assert (X : x <> 0 /\ byte x) by (apply (T_in p x (c ++ r) E); destruct c; [auto|discriminate]).
    rewrite (go_step p x (c ++ r)) by (auto; tauto).
    assert (J1 : exists j J1, J = j :: J1).
    { destruct J as [|j J1]; [|eauto]. exfalso. revert LJ. rewrite E. zl. destruct r; [congruence|]. zl. zpos. lia. }
    destruct J1 as (j & J1 & ->).
    assert (ST : np_step (S (length c + f)) cs pb po (zlen p) (a ++ y :: (j :: J1) ++ g) (zlen a + 1) = Ret (Next (zlen p) (a ++ y :: x :: J1 ++ g) (zlen a + 1 + 1))).
    { unfold np_step. rewrite (rd p x (c ++ r)) by auto. cbn [bind]. replace (x =? 47) with false by lia.
      assert (CP : np_copy pb po (zlen p) (a ++ y :: (j :: J1) ++ g) (zlen a + 1) = Ret (Next (zlen p) (a ++ y :: x :: J1 ++ g) (zlen a + 1 + 1))).
      { pose proof (copy_step p x (c ++ r) (zlen p) (a ++ [y]) j (J1 ++ g) (zlen a + 1) E eq_refl ltac:(zl; lia)) as C. rewrite <- !app_assoc in C. exact C. }
      destruct (x =? 46); [|exact CP]. zpos. replace (_ || _) with false by lia.
      assert (PP : exists p' u, p = p' ++ [u]) by (destruct (exists_last (l := p)) as (p' & u & ->); [intros ->; cbn in Hp; lia|eauto]).
      destruct PP as (p' & u & ->).
      assert (RU : zread pb (po + zlen (p' ++ [u]) - 1) = Ret u).
      { replace (po + zlen (p' ++ [u]) - 1) with (po + zlen p') by (zl; lia). apply (rd p' u (x :: c ++ r)); [rewrite E; now rewrite <- app_assoc|auto]. }
      rewrite RU. cbn [bind].
      assert (RY : zread (a ++ y :: (j :: J1) ++ g) (zlen a + 1 - 1) = Ret y) by (apply zread_at; lia).
      rewrite RY. destruct (u =? 47); cbn [bind andb]; [replace (y =? 47) with false by lia; cbn [bind]|]; exact CP. }
    rewrite ST. cbn [bind].
    destruct (IH (p ++ [x]) r (a ++ [y]) x J1 g f) as (b & z & J' & E1 & Nz' & L' & E2); auto.
    + rewrite E. now rewrite <- app_assoc.
    + zl. zpos. lia.
    + rewrite <- LJ. zl. lia.
    + zl. lia.
    + exists b, z, J'. rewrite <- !app_assoc in *. cbn [app] in *. split; [exact E1|]. split; [exact Nz'|].
      split; [exact L'|]. replace (zlen (p ++ [x])) with (zlen p + 1) in E2 by (zl; lia). replace (zlen (a ++ [y])) with (zlen a + 1) in E2 by (zl; lia).
      rewrite E2. zl. f_equal; lia.
Qed.

Definition wf (st : list (list Z)) : Prop := Forall (fun c => plain c /\ bytes c) st.
Lemma enc_bytes st : wf st -> bytes (enc st).
Proof.
  induction 1 as [|c st [_ Bc] _ IH]; [apply bytes_cons; split; [unfold byte; lia|constructor]|]. rewrite enc_cons. apply bytes_app. split; [exact IH|].
  apply bytes_app. split; [exact Bc|]. apply bytes_cons. split; [unfold byte; lia|constructor].
Qed.
Definition outcome (g : list Z) (st : list (list Z)) (cl : list (list Z)) (res : out (option (list Z * Z))) : Prop :=
  match resolve st cl with
  | None => res = Ret None
  | Some st' => exists O J, res = Ret (Some (O ++ J ++ g, zlen O)) /\ zlen (O ++ J) = zlen T /\ zlen O < zlen T /\ wf st' /\ fin st' O
  end.

Lemma app_snoc {A} (p : list A) x q : (p ++ [x]) ++ q = p ++ x :: q.
Proof. now rewrite <- app_assoc. Qed.
Lemma T_end p x q : T = p ++ x :: q -> zlen p <= zlen t.
Proof. intros E. apply (f_equal zlen) in E. unfold T in E. revert E. zl. zpos. lia. Qed.
Lemma T_pref p : T = p ++ [0] -> p = t.
Proof. intros E. unfold T in E. apply app_inj_tail in E as [E _]. auto. Qed.
Lemma enc_cut st J : wf st -> zlen (enc st ++ J) < 2 ^ 63 -> find_up cs (enc st ++ J) (zlen (enc st) - 1) =
  Ret (match st with [] => None | _ :: s => Some (zlen (enc s) - 1) end).
Proof.
  intros W L. destruct st as [|c s].
  - change (zlen (enc []) - 1) with 0. unfold find_up. destruct cs; [reflexivity|]. reflexivity.
  - pose proof (enc_bytes _ W) as B. apply Forall_inv in W as [(_ & Nc & _) _]. rewrite enc_cons in *. destruct (enc_last s) as (a & Ea). rewrite Ea in *.
    rewrite <- !app_assoc in *. cbn [app] in *. replace (zlen (a ++ 47 :: c ++ [47]) - 1) with (zlen a + 1 + zlen c) by (zl; lia).
    rewrite find_up_ok; [do 2 f_equal; zl; lia| |exact Nc|exact L].
    replace (a ++ 47 :: c ++ [47]) with ((a ++ 47 :: c) ++ [47]) in B by (now rewrite <- app_assoc). apply bytes_app in B. tauto.
Qed.

Lemma main (g : list Z) : zlen T + zlen g < 2 ^ 63 -> forall n rest p0 st J f, (length rest <= n)%nat -> T = (p0 ++ [47]) ++ rest ++ [0] -> wf st ->
  zlen (enc st) <= zlen p0 + 1 -> zlen (enc st ++ J) = zlen T -> (length rest < f)%nat ->
  outcome g st (comps rest) (np_loop f cs pb po (zlen t) (zlen p0 + 1) (enc st ++ J ++ g) (zlen (enc st))).
Proof.
  intros G. induction n as [n IH] using lt_wf_ind. intros rest p0 st J f Hn E W Le LJ Hf.
  destruct f as [|f]; [lia|]. destruct (enc_last st) as (a & Ea).
  assert (LTp : zlen p0 + 1 + zlen rest = zlen t). { apply (f_equal zlen) in E. unfold T in E. revert E. zl. lia. }
  assert (LT : zlen T = zlen t + 1) by (unfold T; zl; lia).
  assert (RL : zread (enc st ++ J ++ g) (zlen (enc st) - 1) = Ret 47).
  { rewrite Ea, app_snoc. apply zread_at. zl. lia. }
  assert (Ez : zlen (enc st) =? 0 = false) by (rewrite Ea; zl; zpos; lia).
  destruct rest as [|x rest].
  - rewrite go_end by (revert LTp; zl; lia). unfold outcome. cbn. exists (enc st), J. split; [reflexivity|]. split; [exact LJ|]. split; [revert LTp; zl; lia|]. split; [exact W|now left].
  - destruct (Z.eq_dec x 47) as [->|Nx].
    + (* a run of slashes *)
      destruct (run_split rest) as (k & r & -> & Hr).
      assert (Hr' : exists x q, r ++ [0] = x :: q /\ x <> 47) by (destruct Hr as [->|(x & q & -> & Nx)]; [exists 0, []|exists x, (q ++ [0])]; split; auto; lia).
      destruct Hr' as (x & q & Er & Nx).
      rewrite (go_step (p0 ++ [47]) 47 ((repeat 47 k ++ r) ++ [0])); [|rewrite E; reflexivity|lia|zl; lia].
      assert (S1 : np_step (S f) cs pb po (zlen p0 + 1) (enc st ++ J ++ g) (zlen (enc st)) = Ret (Next (zlen p0 + 1 + Z.of_nat k) (enc st ++ J ++ g) (zlen (enc st)))).
      { unfold np_step. rewrite (rd (p0 ++ [47]) 47 ((repeat 47 k ++ r) ++ [0])) by (auto; zl; lia). cbn [bind Z.eqb Pos.eqb].
        rewrite (skip_ok k (S f) (p0 ++ [47]) x q); [|rewrite E; cbn [app]; rewrite <- (app_assoc (repeat 47 k)), Er; reflexivity|auto|zl; lia|].
        2:{ cbn [length] in Hf. rewrite app_length, repeat_length in Hf. lia. }
        cbn [bind]. rewrite Ez, RL. reflexivity. }
      rewrite S1. cbn [bind]. rewrite comps_slash. rewrite comps_run. unfold outcome. change (resolve st ([] :: repeat [] k ++ comps r)) with (resolve st (repeat [] k ++ comps r)).
      rewrite resolve_run. cbn [length] in Hn, Hf. rewrite app_length, repeat_length in Hn, Hf.
      replace (zlen p0 + 1 + Z.of_nat k + 1) with (zlen (p0 ++ repeat 47 (S k)) + 1) by (zl; unfold zlen; rewrite repeat_length; lia).
      apply (IH (length r) ltac:(lia)); auto; [|revert Le; zl; unfold zlen; rewrite repeat_length; lia|lia].
      rewrite E. rewrite <- !app_assoc. f_equal. replace ([47] ++ (47 :: repeat 47 k ++ r) ++ [0]) with (repeat 47 (S (S k)) ++ r ++ [0]) by (cbn; now rewrite <- app_assoc).
      change (repeat 47 (S (S k))) with (47 :: repeat 47 (S k)). rewrite repeat_cons, <- !app_assoc. reflexivity.
    + destruct (comp_split (x :: rest)) as (w & r & Ew & Nw & Hr).
      assert (Hw : w <> []). { intros ->. cbn in Ew. subst r. destruct Hr as [Hr|(q & Hr)]; [discriminate|]. injection Hr as Hr _. auto. }
      rewrite Ew in *. clear x rest Nx Ew.
      assert (C : comps (w ++ r) = w :: match r with [] => [] | _ :: q => comps q end).
      { destruct Hr as [->|(q & ->)]; [rewrite app_nil_r; now apply comps_no47|now apply comps_app]. }
      assert (Bw : bytes w).
      { assert (Et : t = p0 ++ [47] ++ w ++ r). { symmetry. rewrite app_assoc. apply T_pref. rewrite E. now rewrite <- !app_assoc. }
        rewrite Et in Bt. apply bytes_app in Bt as [_ B]. apply bytes_app in B as [_ B]. now apply bytes_app in B as [B _]. }
      assert (RA : zread pb (po + (zlen p0 + 1) - 1) = Ret 47).
      { replace (po + (zlen p0 + 1) - 1) with (po + zlen p0) by lia. apply (rd p0 47 ((w ++ r) ++ [0])); [rewrite E; apply app_snoc|auto]. }
      assert (I0 : (zlen p0 + 1 =? 0) || (zlen (enc st) =? 0) = false) by (zpos; lia).
      rewrite C. destruct (list_eq_dec Z.eq_dec w [46]) as [->|W1]; [|destruct (list_eq_dec Z.eq_dec w [46; 46]) as [->|W2]].
      * (* . *)
        rewrite (go_step (p0 ++ [47]) 46 (r ++ [0])) by (auto; try lia; zl; lia).
        unfold np_step. rewrite (rd (p0 ++ [47]) 46 (r ++ [0])) by (auto; zl; lia). cbn [bind Z.eqb Pos.eqb]. rewrite I0, RA. cbn [bind Z.eqb Pos.eqb]. rewrite RL. cbn [bind andb].
        unfold outcome. cbn [resolve]. change (is [46] [] || is [46] [46]) with true. cbn iota.
        destruct Hr as [->|(q & ->)].
        -- rewrite (rd1 (p0 ++ [47]) 46 0 []) by (auto; zl; lia). cbn [bind Z.eqb Pos.eqb].
           assert (NR : np_restore cs pb po (zlen p0 + 1) (enc st ++ J ++ g) (zlen (enc st) - 1) = Ret (Next (zlen p0 + 1) (enc st ++ J ++ g) (zlen (enc st)))).
           { unfold np_restore. rewrite (rd (p0 ++ [47]) 46 ([] ++ [0])) by (auto; zl; lia). cbn [bind]. rewrite Z.sub_add. case cs; reflexivity. }
           rewrite NR. cbn [bind]. destruct f as [|f]; [cbn in Hf; lia|]. rewrite go_end by (revert LTp; zl; lia).
           exists (enc st), J. split; [reflexivity|]. split; [exact LJ|]. split; [revert LTp; zl; lia|]. split; [exact W|now left].
        -- rewrite (rd1 (p0 ++ [47]) 46 47 (q ++ [0])) by (auto; zl; lia). cbn [bind Z.eqb Pos.eqb].
           assert (NR : np_restore cs pb po (zlen p0 + 1 + 1) (enc st ++ J ++ g) (zlen (enc st) - 1) = Ret (Next (zlen p0 + 1 + 1) (enc st ++ J ++ g) (zlen (enc st)))).
           { unfold np_restore. rewrite (rd ((p0 ++ [47]) ++ [46]) 47 (q ++ [0])) by (try (zl; lia); rewrite E; now rewrite <- !app_assoc). cbn [bind]. rewrite Z.sub_add. case cs; reflexivity. }
           rewrite NR. cbn [bind]. cbn [length app] in Hn, Hf.
           replace (zlen p0 + 1 + 1 + 1) with (zlen (p0 ++ [47; 46]) + 1) by (zl; lia).
           apply (IH (length q) ltac:(lia)); auto; [rewrite E; now rewrite <- !app_assoc|zl; lia|lia].
      * (* .. *)
        rewrite (go_step (p0 ++ [47]) 46 (46 :: r ++ [0])) by (auto; try lia; zl; lia).
        unfold np_step. rewrite (rd (p0 ++ [47]) 46 (46 :: r ++ [0])) by (auto; zl; lia). cbn [bind Z.eqb Pos.eqb]. rewrite I0, RA. cbn [bind Z.eqb Pos.eqb]. rewrite RL. cbn [bind andb].
        rewrite (rd1 (p0 ++ [47]) 46 46 (r ++ [0])) by (auto; zl; lia). cbn [bind Z.eqb Pos.eqb].
        assert (RM : exists m q, r ++ [0] = m :: q /\ (m = 0 \/ m = 47)) by (destruct Hr as [->|(q & ->)]; [exists 0, []|exists 47, (q ++ [0])]; auto).
        destruct RM as (m & mq & Em & Hm).
        assert (RD : zread pb (po + (zlen p0 + 1) + 2) = Ret m).
        { replace (po + (zlen p0 + 1) + 2) with (po + (zlen p0 + 3)) by lia. apply (rd ((p0 ++ [47]) ++ [46; 46]) m mq); [|zl; lia]. rewrite E, <- Em. now rewrite <- !app_assoc. }
        rewrite RD. cbn [bind]. replace ((m =? 0) || (m =? 47)) with true by lia.
        rewrite (enc_cut st (J ++ g) W) by (revert LJ G; zl; lia). cbn [bind]. unfold outcome.
        destruct st as [|c s]; [reflexivity|].
        change (resolve (c :: s) ([46; 46] :: match r with [] => [] | _ :: q => comps q end)) with (resolve s match r with [] => [] | _ :: q => comps q end).
        assert (NR : np_restore cs pb po (zlen p0 + 1 + 2) (enc (c :: s) ++ J ++ g) (zlen (enc s) - 1) =
                     Ret (if cs && (m =? 0) then Done (enc (c :: s) ++ J ++ g) (zlen (enc s)) else Next (zlen p0 + 1 + 2) (enc (c :: s) ++ J ++ g) (zlen (enc s)))).
        { unfold np_restore. rewrite Z.add_assoc, RD. cbn [bind]. rewrite Z.sub_add. case cs; cbn [andb]; [case (m =? 0)|]; reflexivity. }
        rewrite NR. cbn [bind]. pose proof (Forall_inv_tail W) as Ws.
        assert (EO : enc (c :: s) ++ J ++ g = enc s ++ ((c ++ [47]) ++ J) ++ g) by (rewrite enc_cons; now rewrite <- !app_assoc).
        assert (LO : zlen (enc s ++ (c ++ [47]) ++ J) = zlen T) by (rewrite <- LJ, enc_cons; zl; lia).
        assert (Lc : zlen (enc s) + 2 <= zlen (enc (c :: s))).
        { rewrite enc_cons. apply Forall_inv in W as [(Nc & _) _]. destruct c; [congruence|]. zl. zpos. lia. }
        destruct Hr as [->|(q & ->)].
        -- injection Em as <- <-. change (0 =? 0) with true. cbn [resolve].
           assert (Z1 : np_loop f cs pb po (zlen t) (zlen p0 + 1 + 2 + 1) (enc (c :: s) ++ J ++ g) (zlen (enc s)) = Ret (Some (enc (c :: s) ++ J ++ g, zlen (enc s))) \/ cs = true).
           { destruct (bool_dec cs true) as [Q|Q]; [now right|left]. apply not_true_is_false in Q. rewrite Q. destruct f as [|f]; [cbn in Hf; lia|]. cbn [np_loop]. replace (_ <? _) with false by (revert LTp; zl; lia). reflexivity. }
           exists (enc s), ((c ++ [47]) ++ J). split.
           { rewrite <- EO. revert Z1. case cs; [reflexivity|intros [Z1|Z1]; [exact Z1|discriminate]]. }
           split; [exact LO|]. split; [revert LTp; zl; lia|]. split; [exact Ws|now left].
        -- injection Em as <- <-. change (47 =? 0) with false. rewrite andb_false_r. cbn [length app] in Hn, Hf.
           replace (zlen p0 + 1 + 2 + 1) with (zlen (p0 ++ [47; 46; 46]) + 1) by (zl; lia). rewrite EO.
           apply (IH (length q) ltac:(lia)); auto; [rewrite E; now rewrite <- !app_assoc|zl; lia|lia].
      * (* an ordinary component *)
        assert (PW : plain w) by (repeat split; auto). unfold outcome. rewrite resolve_plain by auto.
        destruct w as [|x w]; [congruence|]. apply no47_cons in Nw as [Nx Nw]. cbn [app] in E.
        assert (Q1 : (w ++ r) ++ [0] <> []) by (destruct ((w ++ r)); discriminate).
        assert (X : x <> 0 /\ byte x) by (apply (T_in (p0 ++ [47]) x ((w ++ r) ++ [0]) E Q1)).
        rewrite (go_step (p0 ++ [47]) x ((w ++ r) ++ [0])) by (auto; try tauto; zl; lia).
        destruct J as [|j J]; [exfalso; revert LJ LTp; zl; zpos; lia|].
        assert (CP : np_copy pb po (zlen p0 + 1) (enc st ++ (j :: J) ++ g) (zlen (enc st)) = Ret (Next (zlen p0 + 1) (enc st ++ x :: J ++ g) (zlen (enc st) + 1))).
        { apply (copy_step (p0 ++ [47]) x ((w ++ r) ++ [0])); [auto|zl; lia|auto]. }
        assert (S1 : np_step (S f) cs pb po (zlen p0 + 1) (enc st ++ (j :: J) ++ g) (zlen (enc st)) = Ret (Next (zlen p0 + 1) (enc st ++ x :: J ++ g) (zlen (enc st) + 1))).
        { unfold np_step. rewrite (rd (p0 ++ [47]) x ((w ++ r) ++ [0])) by (auto; zl; lia). cbn [bind]. replace (x =? 47) with false by lia.
          destruct (x =? 46) eqn:X46; [|exact CP]. assert (x = 46) by lia. subst x. rewrite I0, RA. cbn [bind Z.eqb Pos.eqb]. rewrite RL. cbn [bind andb Z.eqb Pos.eqb].
          destruct w as [|y w]; [congruence|]. apply no47_cons in Nw as [Ny Nw].
          assert (Y : y <> 0 /\ byte y). { apply (T_in ((p0 ++ [47]) ++ [46]) y ((w ++ r) ++ [0])); [rewrite E; now rewrite <- !app_assoc|destruct (w ++ r); discriminate]. }
          rewrite (rd1 (p0 ++ [47]) 46 y ((w ++ r) ++ [0])) by (auto; zl; lia). cbn [bind]. destruct Y as [Y _].
          replace (y =? 47) with false by lia. replace (y =? 0) with false by lia. destruct (y =? 46) eqn:Y46; [|exact CP].
          assert (y = 46) by lia. subst y. destruct w as [|z w]; [congruence|]. apply no47_cons in Nw as [Nz1 Nw].
          assert (ZZ : z <> 0 /\ byte z). { apply (T_in ((p0 ++ [47]) ++ [46; 46]) z ((w ++ r) ++ [0])); [rewrite E; now rewrite <- !app_assoc|destruct (w ++ r); discriminate]. }
          replace (po + (zlen p0 + 1) + 2) with (po + (zlen p0 + 3)) by lia.
          rewrite (rd ((p0 ++ [47]) ++ [46; 46]) z ((w ++ r) ++ [0])) by (try (zl; lia); rewrite E; now rewrite <- !app_assoc). cbn [bind].
          replace (_ || _) with false by lia. exact CP. }
        rewrite S1. cbn [bind].
        cbn [length] in Hf, Hn. cbn [app length] in Hf, Hn. rewrite app_length in Hf, Hn.
        destruct (copy_rest w ((p0 ++ [47]) ++ [x]) (r ++ [0]) (enc st) x J g (f - length w)) as (b & z & J' & E1 & Nz1 & L1 & E2); auto.
        -- rewrite E. now rewrite <- !app_assoc.
        -- destruct r; discriminate.
        -- zl. zpos. lia.
        -- rewrite <- LJ. zl. lia.
        -- zl. lia.
        -- replace (length w + (f - length w))%nat with f in E2 by lia.
           replace (zlen ((p0 ++ [47]) ++ [x])) with (zlen p0 + 1 + 1) in E2 by (zl; lia). rewrite E2. clear E2.
           assert (Ff : exists f', (f - length w = S f')%nat) by (exists (f - length w - 1)%nat; lia). destruct Ff as (f' & Ff). rewrite Ff.
           destruct Hr as [->|(q & ->)].
           ++ rewrite go_end by (revert LTp; zl; lia). cbn [resolve]. exists (enc st ++ x :: w), J'. split; [rewrite <- app_assoc; cbn [app]; do 3 f_equal; zl; lia|].
              split; [rewrite <- app_assoc; exact L1|]. split; [revert LTp; zl; lia|]. split; [constructor; auto|]. right. eauto.
           ++ (* the slash after it *)
              destruct (run_split q) as (k & r & -> & Hr).
              assert (Hr' : exists x q, r ++ [0] = x :: q /\ x <> 47) by (destruct Hr as [->|(y & q & -> & Ny)]; [exists 0, []|exists y, (q ++ [0])]; split; auto; lia).
              destruct Hr' as (y & q & Er & Ny).
              assert (E3 : T = ((p0 ++ [47]) ++ x :: w) ++ 47 :: repeat 47 k ++ y :: q). { rewrite E, <- Er. rewrite <- !app_assoc. cbn. now rewrite <- !app_assoc. }
              rewrite (go_step ((p0 ++ [47]) ++ x :: w) 47 (repeat 47 k ++ y :: q)); [|exact E3|lia|zl; lia].
              cbn [length] in Hf, Hn. rewrite app_length, repeat_length in Hf, Hn.
              destruct J' as [|j' J']; [exfalso; revert L1 LTp; zl; zpos; lia|].
              assert (S2 : np_step (S f') cs pb po (zlen p0 + 1 + 1 + zlen w) (enc st ++ x :: w ++ (j' :: J') ++ g) (zlen (enc st) + 1 + zlen w) =
                           Ret (Next (zlen p0 + 1 + 1 + zlen w + Z.of_nat k) (enc (( x :: w) :: st) ++ J' ++ g) (zlen (enc ((x :: w) :: st))))).
              { unfold np_step. rewrite (rd ((p0 ++ [47]) ++ x :: w) 47 (repeat 47 k ++ y :: q)) by (auto; zl; lia). cbn [bind Z.eqb Pos.eqb].
                rewrite (skip_ok k (S f') ((p0 ++ [47]) ++ x :: w) y q) by (auto; try lia; zl; lia). cbn [bind].
                replace (_ =? 0) with false by (zpos; lia).
                assert (RZ : zread (enc st ++ x :: w ++ (j' :: J') ++ g) (zlen (enc st) + 1 + zlen w - 1) = Ret z).
                { replace (enc st ++ x :: w ++ (j' :: J') ++ g) with ((b ++ [z]) ++ (j' :: J') ++ g) by (rewrite <- E1, <- !app_assoc; reflexivity).
                  rewrite app_snoc. apply zread_at. apply (f_equal zlen) in E1. revert E1. zl. lia. }
                rewrite RZ. cbn [bind]. replace (z =? 47) with false by lia. cbn [negb].
                unfold np_copy. rewrite (rd (((p0 ++ [47]) ++ x :: w) ++ repeat 47 k) 47 (y :: q)).
                2:{ rewrite E3. change (47 :: repeat 47 k ++ y :: q) with ((47 :: repeat 47 k) ++ y :: q). rewrite repeat_cons, <- !app_assoc. reflexivity. }
                2:{ zl. unfold zlen. rewrite repeat_length. lia. }
                cbn [bind]. replace (enc st ++ x :: w ++ (j' :: J') ++ g) with ((enc st ++ x :: w) ++ j' :: J' ++ g) by (rewrite <- !app_assoc; reflexivity).
                rewrite zwrite_at by (zl; lia). cbn [bind]. rewrite enc_cons. rewrite <- !app_assoc. cbn [app]. do 2 f_equal. zl. lia. }
              rewrite S2. cbn [bind]. rewrite comps_run, resolve_run.
              replace (zlen p0 + 1 + 1 + zlen w + Z.of_nat k + 1) with (zlen (((p0 ++ [47]) ++ x :: w) ++ repeat 47 k) + 1) by (zl; unfold zlen; rewrite repeat_length; lia).
              apply (IH (length r) ltac:(lia)); auto.
              ** rewrite E3, <- Er. change (47 :: repeat 47 k ++ r ++ [0]) with ((47 :: repeat 47 k) ++ r ++ [0]). rewrite repeat_cons, <- !app_assoc. reflexivity.
              ** constructor; auto.
              ** rewrite enc_cons. revert Le. zl. zpos. lia.
              ** rewrite enc_cons. rewrite <- L1. zl. lia.
              ** lia.
Qed.
End NP.

Lemma last_no47 (c : list Z) : c <> [] -> no47 c -> exists b z, c = b ++ [z] /\ z <> 47.
Proof. intros H N. destruct (exists_last H) as (b & z & ->). exists b, z. split; auto. intros ->. apply N. apply in_or_app. right. now left. Qed.
Lemma finish_ok st O J g : fin st O -> wf st -> J <> [] ->
  exists J', np_finish (O ++ J ++ g) (zlen O) = Ret ((47 :: join [47] (rev st)) ++ 0 :: J' ++ g, zlen (47 :: join [47] (rev st))) /\
             zlen ((47 :: join [47] (rev st)) ++ 0 :: J') = zlen (O ++ J).
Proof.
  intros F W NJ. destruct J as [|j J]; [congruence|].
  assert (KEEP : forall a z, O = a ++ [z] -> z <> 47 \/ a = [] -> np_finish (O ++ (j :: J) ++ g) (zlen O) = Ret (O ++ 0 :: J ++ g, zlen O)).
  { intros a z -> Hz. unfold np_finish. destruct (1 <? zlen (a ++ [z])) eqn:L.
    - rewrite app_snoc, (zread_at a z) by (zl; lia). cbn [bind]. destruct Hz as [Hz| ->]; [|cbn in L; lia].
      replace (z =? 47) with false by lia. rewrite <- app_snoc. cbn [app]. rewrite zwrite_at by reflexivity. reflexivity.
    - cbn [bind app]. rewrite zwrite_at by reflexivity. reflexivity. }
  destruct F as [->|(c & s & -> & ->)].
  - destruct st as [|c s].
    + change (enc []) with [47] in *. rewrite (KEEP [] 47) by auto. exists J. split; [reflexivity|]. cbn. zl. lia.
    + rewrite enc_join by discriminate. set (r := 47 :: join [47] (rev (c :: s))).
      assert (Lr : 1 <= zlen r) by (unfold r; zl; zpos; lia).
      exists (j :: J). split; [|zl; lia]. unfold np_finish. replace (1 <? zlen (r ++ [47])) with true by (zl; lia).
      rewrite app_snoc, (zread_at r 47) by (zl; lia). cbn [bind Z.eqb Pos.eqb]. rewrite zwrite_at by (zl; lia). cbn [bind]. repeat f_equal. zl. lia.
  - assert (R : 47 :: join [47] (rev (c :: s)) = enc s ++ c).
    { apply (app_inv_tail [47]). rewrite <- enc_join by discriminate. rewrite enc_cons. now rewrite app_assoc. }
    rewrite R. apply Forall_inv in W as [(Nc & N4 & _) _]. destruct (last_no47 c Nc N4) as (b & z & -> & Nz1).
    rewrite (KEEP (enc s ++ b) z) by (auto; now rewrite app_assoc). exists J. split; [reflexivity|]. zl. lia.
Qed.

Section Top.
Variables (cs : bool) (pre rest post : list Z).
Let t := 47 :: rest.
Hypothesis Nt : nz t.
Hypothesis Bt : bytes t.
Let pb := pre ++ t ++ 0 :: post.
Let po := zlen pre.

Lemma start g J f : zlen J = zlen t + 1 -> zlen J + zlen g < 2 ^ 63 -> (length t < f)%nat ->
  outcome t g [] (comps rest) (np_loop f cs pb po (zlen t) 0 (J ++ g) 0).
Proof.
  intros LJ G Hf. destruct f as [|f]; [lia|]. destruct (run_split rest) as (k & r & Ek & Hr).
  assert (Hr' : exists x q, r ++ [0] = x :: q /\ x <> 47) by (destruct Hr as [->|(x & q & -> & Nx)]; [exists 0, []|exists x, (q ++ [0])]; split; auto; lia).
  destruct Hr' as (x & q & Er & Nx).
  assert (E : t ++ [0] = [] ++ 47 :: repeat 47 k ++ x :: q) by (unfold t; rewrite Ek, <- Er; cbn; now rewrite <- app_assoc).
  unfold pb, po. rewrite (go_step cs pre t post [] 47 (repeat 47 k ++ x :: q)) by (auto; lia).
  assert (LL : (length t = S (k + length r))%nat) by (unfold t; rewrite Ek; cbn; rewrite app_length, repeat_length; lia).
  destruct J as [|j J]; [exfalso; revert LJ; zl; zpos; lia|].
  assert (S1 : np_step (S f) cs (pre ++ t ++ 0 :: post) (zlen pre) 0 ((j :: J) ++ g) 0 = Ret (Next (Z.of_nat k) (enc [] ++ J ++ g) (zlen (enc [])))).
  { unfold np_step. rewrite (rd pre t post [] 47 (repeat 47 k ++ x :: q)) by auto. cbn [bind Z.eqb Pos.eqb].
    rewrite (skip_ok pre t post k (S f) [] x q) by (auto; lia). cbn [bind]. change (0 + Z.of_nat k) with (Z.of_nat k).
    unfold np_copy. rewrite (rd pre t post (repeat 47 k) 47 (x :: q)).
    2:{ rewrite E. cbn [app]. change (47 :: repeat 47 k ++ x :: q) with ((47 :: repeat 47 k) ++ x :: q). rewrite repeat_cons, <- !app_assoc. reflexivity. }
    2:{ unfold zlen. now rewrite repeat_length. }
    cbn [bind]. change ((j :: J) ++ g) with ([] ++ j :: J ++ g). rewrite zwrite_at by reflexivity. reflexivity. }
  rewrite S1. cbn [bind]. replace (Z.of_nat k + 1) with (zlen (repeat 47 k) + 1) by (unfold zlen; now rewrite repeat_length).
  rewrite Ek, comps_run. unfold outcome. rewrite resolve_run.
  apply (main cs pre t post Nt Bt g) with (n := length r); auto.
  - revert G LJ. zl. lia.
  - rewrite E. cbn [app]. change (47 :: repeat 47 k ++ x :: q) with ((47 :: repeat 47 k) ++ x :: q). rewrite repeat_cons, Er. reflexivity.
  - constructor.
  - change (zlen (enc [])) with 1. zpos. lia.
  - change (enc []) with [47]. revert LJ. zl. lia.
  - lia.
Qed.
End Top.

Lemma np_size f : forall pb po s s' i ob os, np_loop f true pb po s i ob os = np_loop f true pb po s' i ob os.
Proof.
  induction f as [|f IH]; intros; [reflexivity|]. cbn [np_loop]. destruct (zread pb (po + i)) as [z| |]; cbn [bind]; auto. destruct (negb (negb (z =? 0))); auto.
  destruct (np_step (S f) true pb po i ob os) as [[]| |]; cbn [bind]; auto.
Qed.
Definition is_path (t : list Z) : Prop := nz t /\ bytes t.
Lemma normal_slash r : normal (47 :: r) = option_map (fun st => 47 :: join [47] (rev st)) (resolve [] (comps r)).
Proof. reflexivity. Qed.
(** the buffer p holds t followed by a terminator *)
Lemma normalizepath_ok fuel buf pre t post :
  nz t -> bytes t -> zlen t < zlen buf -> zlen buf < 2 ^ 63 -> (length t < fuel)%nat ->
  match normal t with
  | None => normalizepath fuel buf (mkSp (pre ++ t ++ 0 :: post) (zlen pre) (zlen t)) = Ret (0, mkSp (pre ++ t ++ 0 :: post) (zlen pre) (zlen t))
  | Some r => exists k, normalizepath fuel buf (mkSp (pre ++ t ++ 0 :: post) (zlen pre) (zlen t)) = Ret (1, mkSp (pre ++ r ++ 0 :: k ++ post) (zlen pre) (zlen r)) /\
                        zlen (r ++ k) = zlen t
  end.
Proof.
  intros N B L LB Hf. unfold normalizepath. cbn [sz sb so].
  destruct t as [|c rest]; [reflexivity|]. replace (zlen (c :: rest) =? 0) with false by (zl; zpos; lia).
  cbn [app]. rewrite zread_at by reflexivity. cbn [bind]. destruct (Z.eq_dec c 47) as [->|Nc].
  2:{ replace (c =? 47) with false by lia. cbn [negb normal]. replace (c =? 47) with false by lia. reflexivity. }
  cbn [negb Z.eqb Pos.eqb]. rewrite normal_slash.
  destruct (zsplit (zlen (47 :: rest) + 1) buf) as (J & g & -> & LJ); [zl; zpos; lia|].
  pose proof (start false pre rest post N B g J fuel LJ ltac:(revert LB; zl; lia) Hf) as S. cbv zeta in S. unfold outcome in S. cbn [app] in S.
  destruct (resolve [] (comps rest)) as [st|]; cbn [option_map].
  - destruct S as (O & J2 & E & L1 & L2 & W & F). rewrite E. cbn [bind].
    assert (NJ : J2 <> []) by (intros ->; revert L1; zl; lia).
    destruct (finish_ok st O J2 g F W NJ) as (J' & E1 & L3). rewrite E1. cbn [bind]. set (r := 47 :: join [47] (rev st)) in *.
    change (r ++ 0 :: J' ++ g) with (r ++ [0] ++ J' ++ g). rewrite (app_assoc r). pose proof (zreads_at [] (r ++ [0]) (J' ++ g) 0 (zlen r + 1) eq_refl ltac:(zl; lia)) as R. cbn [app] in R. rewrite R. cbn [bind].
    assert (LK : zlen r + zlen J' + 1 = zlen (47 :: rest) + 1) by (revert L1 L3; zl; lia).
    destruct (zsplit (zlen r + 1) (47 :: rest ++ [0])) as (m & k & Em & Lm); [revert LK; zl; zpos; lia|].
    exists k. replace (pre ++ 47 :: rest ++ 0 :: post) with (pre ++ m ++ k ++ post).
    + rewrite zwrites_at by (auto; zl; lia). cbn [bind]. split; [now rewrite <- !app_assoc|].
      apply (f_equal zlen) in Em. revert Em. zl. lia.
    + f_equal. rewrite app_assoc, <- Em. cbn. now rewrite <- app_assoc.
  - rewrite S. reflexivity.
Qed.
Lemma normalizepath_cstr_ok fuel t post o g :
  nz t -> bytes t -> zlen o = zlen t + 1 -> zlen o + zlen g < 2 ^ 63 -> (length t < fuel)%nat ->
  match normal t with
  | None => normalizepath_cstr fuel (t ++ 0 :: post) (o ++ g) = Ret None
  | Some r => exists k, normalizepath_cstr fuel (t ++ 0 :: post) (o ++ g) = Ret (Some (r ++ 0 :: k ++ g)) /\ zlen (r ++ k) = zlen t
  end.
Proof.
  intros N B L LB Hf. unfold normalizepath_cstr. destruct t as [|c rest]; [reflexivity|]. cbn [app]. change (zread (c :: rest ++ 0 :: post) 0) with (Ret c). cbn [bind].
  destruct (Z.eq_dec c 47) as [->|Nc].
  2:{ replace (c =? 47) with false by lia. cbn [negb normal]. replace (c =? 47) with false by lia. reflexivity. }
  cbn [negb Z.eqb Pos.eqb]. rewrite normal_slash.
  pose proof (start true [] rest post N B g o fuel L LB Hf) as S. cbv zeta in S. unfold outcome in S. cbn [app] in S.
  rewrite (np_size fuel _ _ _ 0) in S. change (zlen (@nil Z)) with 0 in S.
  destruct (resolve [] (comps rest)) as [st|]; cbn [option_map].
  - destruct S as (O & J2 & E & L1 & L2 & W & F). rewrite E. cbn [bind].
    assert (NJ : J2 <> []) by (intros ->; revert L1; zl; lia).
    destruct (finish_ok st O J2 g F W NJ) as (J' & E1 & L3). rewrite E1. cbn [bind]. exists J'. split; [reflexivity|]. revert L1 L3. zl. lia.
  - rewrite S. reflexivity.
Qed.

(** ---------- canonical form ---------- *)
Lemma resolve_all_plain : forall l st, Forall plain l -> resolve st l = Some (rev l ++ st).
Proof.
  induction l as [|c l IH]; intros st F; [reflexivity|]. apply Forall_cons_iff in F as [P F]. rewrite resolve_plain by auto. rewrite IH by auto. cbn [rev]. now rewrite <- app_assoc.
Qed.
Lemma comps_join : forall l, l <> [] -> Forall no47 l -> comps (join [47] l) = l.
Proof.
  induction l as [|c l IH]; [congruence|]. intros _ F. apply Forall_cons_iff in F as [N F]. destruct l as [|d l]; [now apply comps_no47|].
  rewrite join_cons by discriminate. cbn [app]. rewrite comps_app by auto. rewrite IH; auto. discriminate.
Qed.
Lemma comps_all_no47 t : Forall no47 (comps t).
Proof.
  induction t as [|c t IH]; cbn [comps]; [repeat constructor; easy|]. destruct (c =? 47) eqn:E; [constructor; [easy|exact IH]|].
  destruct (comps t) as [|x l]; [repeat constructor; apply no47_cons; split; [lia|easy]|]. apply Forall_cons_iff in IH as [H1 H2]. constructor; [apply no47_cons; split; [lia|exact H1]|exact H2].
Qed.
Lemma resolve_plain_out : forall l st st', Forall no47 l -> Forall plain st -> resolve st l = Some st' -> Forall plain st'.
Proof.
  induction l as [|c l IH]; intros st st' F P; cbn [resolve]; [intros [= <-]; exact P|]. apply Forall_cons_iff in F as [N F].
  destruct (is c []) eqn:E1; cbn [orb]; [now apply IH|]. destruct (is c [46]) eqn:E2; [now apply IH|].
  destruct (is c [46; 46]) eqn:E3.
  - destruct st as [|d st]; [discriminate|]. apply IH; auto. now apply Forall_inv_tail in P.
  - apply IH; auto. constructor; auto. split; [intros ->; discriminate|]. split; [auto|]. split; intros ->; discriminate.
Qed.
Lemma normal_out t r : normal t = Some r -> exists l, r = 47 :: join [47] l /\ Forall plain l.
Proof.
  destruct t as [|c t]; [discriminate|]. cbn [normal]. destruct (c =? 47); [|discriminate]. destruct (resolve [] (comps t)) as [st|] eqn:E; [|discriminate].
  intros [= <-]. exists (rev st). split; [reflexivity|]. apply Forall_rev. apply (resolve_plain_out _ _ _ (comps_all_no47 t) (Forall_nil _) E).
Qed.
Lemma plain_no47 l : Forall plain l -> Forall no47 l.
Proof. apply Forall_impl. intros c (_ & H & _). exact H. Qed.
Lemma normal_of l : Forall plain l -> normal (47 :: join [47] l) = Some (47 :: join [47] l).
Proof.
  intros F. rewrite normal_slash. destruct l as [|c l]; [reflexivity|]. rewrite comps_join by (try discriminate; now apply plain_no47).
  rewrite resolve_all_plain by auto. rewrite app_nil_r. cbn [option_map]. now rewrite rev_involutive.
Qed.
Lemma normal_idem t r : normal t = Some r -> normal r = Some r.
Proof. intros H. apply normal_out in H as (l & -> & F). now apply normal_of. Qed.
Lemma comps_cat a b : comps (a ++ 47 :: b) = comps a ++ comps b.
Proof.
  induction a as [|c a IH]; [reflexivity|]. cbn [app comps]. rewrite IH. destruct (c =? 47); [reflexivity|]. pose proof (comps_ne a). destruct (comps a); [congruence|reflexivity].
Qed.
Lemma normal_canon t r : normal t = Some r ->
  exists q, r = 47 :: q /\ (q = [] \/ Forall (fun c => c <> [] /\ c <> [46] /\ c <> [46; 46]) (comps q)).
Proof.
  intros H. apply normal_out in H as (l & -> & F). exists (join [47] l). split; [reflexivity|]. destruct l as [|c l]; [now left|right].
  rewrite comps_join by (try discriminate; now apply plain_no47). revert F. apply Forall_impl. intros d (H1 & _ & H2 & H3). auto.
Qed.
Lemma normal_no_double t r a b : normal t = Some r -> r <> a ++ [47; 47] ++ b.
Proof.
  intros H E. destruct (normal_canon t r H) as (q & -> & Hq).
  assert (C : comps (47 :: q) = comps a ++ [] :: comps b) by (rewrite E; cbn [app]; rewrite comps_cat; reflexivity). rewrite comps_slash in C.
  assert (I : In [] (comps q)).
  { destruct a as [|x a]; [cbn in C; injection C as ->; now left|]. cbn [app] in E. injection E as <- ->. apply (f_equal (@tl _)) in C. cbn [tl] in C.
    cbn [comps Z.eqb Pos.eqb app tl] in C. rewrite C. apply in_or_app. right. now left. }
  destruct Hq as [->|F]; [apply (f_equal zlen) in E; revert E; zl; zpos; lia|]. rewrite Forall_forall in F. destruct (F [] I) as [F1 _]. now apply F1.
Qed.
Lemma normal_no_trail t r a : normal t = Some r -> r = a ++ [47] -> a = [].
Proof.
  intros H E. destruct (normal_canon t r H) as (q & -> & Hq). destruct a as [|x a]; [reflexivity|]. exfalso. injection E as <- ->. rewrite comps_cat in Hq.
  destruct Hq as [Hq|F]; [destruct a; discriminate|]. apply Forall_app in F as [_ F]. apply Forall_inv in F. now apply F.
Qed.

(** ---------- getpathdiff ---------- *)
Definition norm_or (t : list Z) : list Z := match normal t with Some r => r | None => t end.
Definition base (r : list Z) : list Z := if zlen r =? 1 then [] else r.
Lemma normalizepath_or fuel buf pre t post : nz t -> bytes t -> zlen t < zlen buf -> zlen buf < 2 ^ 63 -> (length t < fuel)%nat ->
  exists v k, normalizepath fuel buf (mkSp (pre ++ t ++ 0 :: post) (zlen pre) (zlen t)) = Ret (v, mkSp (pre ++ norm_or t ++ 0 :: k) (zlen pre) (zlen (norm_or t))).
Proof.
  intros N B L LB Hf. pose proof (normalizepath_ok fuel buf pre t post N B L LB Hf) as H. unfold norm_or. destruct (normal t) as [r|].
  - destruct H as (k & H & _). exists 1, (k ++ post). rewrite H. reflexivity.
  - exists 0, post. rewrite H. reflexivity.
Qed.
Section Diff.
Variables (fuel : nat) (buf1 buf2 pre1 t1 post1 pre2 t2 post2 work : list Z).
Hypothesis N1 : nz t1. Hypothesis B1 : bytes t1. Hypothesis L1 : zlen t1 < zlen buf1. Hypothesis LB1 : zlen buf1 < 2 ^ 63. Hypothesis F1 : (length t1 < fuel)%nat.
Hypothesis N2 : nz t2. Hypothesis B2 : bytes t2. Hypothesis L2 : zlen t2 < zlen buf2. Hypothesis LB2 : zlen buf2 < 2 ^ 63. Hypothesis F2 : (length t2 < fuel)%nat.
Let p1 := mkSp (pre1 ++ t1 ++ 0 :: post1) (zlen pre1) (zlen t1).
Let p2 := mkSp (pre2 ++ t2 ++ 0 :: post2) (zlen pre2) (zlen t2).
Let b := base (norm_or t1).
Let r2 := norm_or t2.

Lemma base_split : exists x, norm_or t1 = b ++ x /\ (if zlen (norm_or t1) =? 1 then 0 else zlen (norm_or t1)) = zlen b.
Proof. unfold b, base. destruct (_ =? 1); [exists (norm_or t1)|exists []]; split; auto. now rewrite app_nil_r. Qed.
Lemma diff_ok :
  exists q1 q2,
  (forall s u w, r2 = b ++ s -> work = u ++ w -> zlen u = zlen s + 1 -> getpathdiff fuel buf1 buf2 p1 p2 work = Ret (zlen s, q1, q2, s ++ [0] ++ w)) /\
  ((zlen r2 < zlen b \/ (zlen b < zlen r2 /\ ztake (zlen b) r2 <> b)) -> exists q1' q2', getpathdiff fuel buf1 buf2 p1 p2 work = Ret (-1, q1', q2', work)) /\
  (forall x w, zlen r2 = zlen b -> work = x :: w -> getpathdiff fuel buf1 buf2 p1 p2 work = Ret (0, q1, q2, 0 :: w)) /\
  sz q1 = zlen (norm_or t1) /\ sz q2 = zlen (norm_or t2).
Proof.
  destruct (normalizepath_or fuel buf1 pre1 t1 post1) as (v1 & k1 & E1); auto.
  destruct (normalizepath_or fuel buf2 pre2 t2 post2) as (v2 & k2 & E2); auto.
  unfold getpathdiff, p1, p2. rewrite E1. cbn [bind]. rewrite E2. cbn [bind sz sb so]. fold r2. destruct base_split as (x & Eb & ->). pose proof (zlen_nonneg b). pose proof (zlen_nonneg r2).
  exists (mkSp (pre1 ++ norm_or t1 ++ 0 :: k1) (zlen pre1) (zlen (norm_or t1))), (mkSp (pre2 ++ r2 ++ 0 :: k2) (zlen pre2) (zlen r2)). split; [|split; [|split; [|split; reflexivity]]].
  - intros s u w -> -> Lu. replace (zlen (b ++ s) - zlen b) with (zlen s) by (zl; lia). zpos. replace (zlen s <? 0) with false by lia.
    destruct (zlen s =? 0) eqn:Es.
    + apply Z.eqb_eq in Es. apply zlen_0 in Es. subst s. destruct u as [|y [|]]; [cbn in Lu; lia| |revert Lu; zl; zpos; lia]. cbn [bind app]. reflexivity.
    + rewrite Eb. unfold memcmp0. replace (pre1 ++ (b ++ x) ++ 0 :: k1) with (pre1 ++ b ++ x ++ 0 :: k1) by (now rewrite <- app_assoc).
      rewrite zreads_at by auto. cbn [bind]. replace (pre2 ++ (b ++ s) ++ 0 :: k2) with (pre2 ++ b ++ s ++ 0 :: k2) by (now rewrite <- app_assoc).
      rewrite zreads_at by auto. cbn [bind]. destruct (list_eq_dec Z.eq_dec b b); [|congruence].
      unfold memcpy. rewrite (app_assoc pre2 b). rewrite zreads_at by (auto; zl; lia). cbn [bind].
      destruct (zsplit (zlen s) u) as (u1 & u2 & -> & Lu1); [lia|]. rewrite <- app_assoc. pose proof (zwrites_at [] u1 (u2 ++ w) s 0 eq_refl Lu1) as W. cbn [app] in W. rewrite W. cbn [bind].
      assert (exists y, u2 = [y]) as (y & ->). { revert Lu. zl. intros Lu. destruct u2 as [|y [|]]; [cbn in Lu; lia|eauto|revert Lu; zl; zpos; lia]. }
      cbn [app]. rewrite zwrite_at by auto. cbn [bind]. rewrite <- !app_assoc. reflexivity.
  - intros Hn. destruct (Z.ltb_spec (zlen r2 - zlen b) 0) as [G|G]; [do 2 eexists; reflexivity|]. destruct Hn as [Hn|[Hl Hn]]; [lia|].
    replace (zlen r2 - zlen b =? 0) with false by lia. rewrite Eb. unfold memcmp0. rewrite <- app_assoc. rewrite zreads_at by auto. cbn [bind].
    assert (E : r2 = ztake (zlen b) r2 ++ zdrop (zlen b) r2) by (symmetry; apply ztake_zdrop). rewrite E. rewrite <- app_assoc. rewrite zreads_at by (auto; rewrite zlen_ztake; lia). cbn [bind].
    destruct (list_eq_dec _ _ _) as [G'|_]; [congruence|]. cbn [bind]. do 2 eexists; reflexivity.
  - intros y w Hz ->. rewrite Hz, Z.sub_diag. cbn [Z.ltb Z.compare Z.eqb bind]. reflexivity.
Qed.
End Diff.

Lemma join_slash l : l <> [] -> 47 :: join [47] l = concat (map (fun c => 47 :: c) l).
Proof.
  induction l as [|c l IH]; [congruence|]. intros _. destruct l as [|d l]; [cbn; now rewrite app_nil_r|].
  rewrite join_cons by discriminate. cbn [map concat] in *. rewrite <- IH by discriminate. reflexivity.
Qed.

(** ---------- getFileExt ---------- *)
Lemma ext_loop_ok a : forall e q, ~ In 46 e -> ext_loop (length a + 1 + length e) (a ++ 46 :: e ++ q) = Ret (zlen a + 1).
Proof.
  induction e as [|x e IH] using rev_ind; intros q N.
  - cbn [length]. replace (length a + 1 + 0)%nat with (S (length a)) by lia. cbn [ext_loop]. rewrite zread_at by reflexivity. cbn [bind Z.eqb Pos.eqb].
    replace (zlen a + 1) with (Z.of_nat (S (length a))) by (unfold zlen; lia). destruct (_ =? 0); reflexivity.
  - rewrite app_length. cbn [length]. replace (length a + 1 + (length e + 1))%nat with (S (length a + 1 + length e)) by lia. cbn [ext_loop]. replace (_ =? 0) with false by lia.
    replace (a ++ 46 :: (e ++ [x]) ++ q) with ((a ++ 46 :: e) ++ x :: q) by (rewrite <- !app_assoc; reflexivity).
    rewrite zread_at by (zl; unfold zlen; lia). cbn [bind]. replace (x =? 46) with false by (destruct (Z.eqb_spec x 46); auto; exfalso; apply N, in_or_app; right; now left).
    rewrite <- app_assoc. apply (IH (x :: q)). intros I. apply N, in_or_app. now left.
Qed.
Lemma ext_ok a e q : ~ In 46 e -> getFileExt (a ++ 46 :: e ++ q) (zlen (a ++ 46 :: e)) = Ret (Some (zlen (a ++ [46]))).
Proof.
  intros N. unfold getFileExt. replace (Z.to_nat (zlen (a ++ 46 :: e))) with (length a + 1 + length e)%nat by (unfold zlen; rewrite app_length; cbn; lia).
  rewrite ext_loop_ok by auto. cbn [bind]. replace (0 <? zlen a + 1) with true by (zpos; lia). do 2 f_equal. zl. lia.
Qed.
Lemma ext_none c n q : ~ In 46 n -> getFileExt ((c :: n) ++ q) (zlen (c :: n)) = Ret (Some 1).
Proof.
  intros N. unfold getFileExt. replace (Z.to_nat (zlen (c :: n))) with (S (length n)) by (unfold zlen; cbn; lia).
  assert (E : forall e q, ~ In 46 e -> ext_loop (S (length e)) (c :: e ++ q) = Ret 1).
  { induction e as [|x e IH] using rev_ind; intros q' Ne; [reflexivity|]. rewrite app_length. cbn [length]. replace (length e + 1)%nat with (S (length e)) by lia.
    cbn [ext_loop]. replace (_ =? 0) with false by lia. replace (c :: (e ++ [x]) ++ q') with ((c :: e) ++ x :: q') by (cbn; now rewrite <- app_assoc).
    rewrite zread_at by (unfold zlen; cbn; lia). cbn [bind]. replace (x =? 46) with false by (destruct (Z.eqb_spec x 46); auto; exfalso; apply Ne, in_or_app; right; now left).
    apply (IH (x :: q')). intros I. apply Ne, in_or_app. now left. }
  cbn [app]. now rewrite E.
Qed.
