(** Proofs about the PSP variant of normalizepath_cstr. *)
From Verif Require Import Base Bits Cstr M_stringptr M_filelib S_stringptr S_filelib D_stringptr P_stringptr P_spl P_filelib M_psp.

Section Shift.
Variable D : list Z.
Hypothesis ND : no47 D.
Notation d := (zlen D).

Lemma rd_shift b i j : 0 <= i -> j = d + i -> zread (D ++ b) j = zread b i.
Proof. intros H ->. rewrite zread_app2 by lia. f_equal. lia. Qed.
Lemma wr_shift b i j v : 0 <= i -> j = d + i -> zwrite (D ++ b) j v = match zwrite b i v with Ret b => Ret (D ++ b) | UB => UB | Fuel => Fuel end.
Proof.
  intros H ->. destruct (Z_lt_dec i (zlen b)) as [L|L].
  - assert (X : exists p q, b = p ++ q /\ zlen p = i) by (exists (ztake i b), (zdrop i b); split; [symmetry; apply ztake_zdrop|rewrite zlen_ztake; lia]). destruct X as (p & q & -> & Lp). destruct q as [|x q]; [exfalso; revert L Lp; zl; lia|].
    rewrite (zwrite_at p) by auto. rewrite app_assoc. rewrite (zwrite_at (D ++ p)) by (zl; lia). now rewrite <- app_assoc.
  - rewrite !zwrite_oob by (zl; lia). reflexivity.
Qed.
Lemma skip_shift : forall f R i k, 0 <= i -> skip_slashes f R 0 i = Ret k -> i <= k /\ skip_slashes f (D ++ R) 0 (d + i) = Ret (d + k).
Proof.
  induction f as [|f IH]; intros R i k H E; [discriminate|]. cbn [skip_slashes] in *. rewrite (rd_shift R (0 + i + 1)) by lia.
  destruct (zread R (0 + i + 1)) as [c| |]; try discriminate. cbn [bind] in *. destruct (c =? 47).
  - replace (d + i + 1) with (d + (i + 1)) by lia. apply IH in E; [|lia]. destruct E. split; [lia|auto].
  - injection E as <-. split; [lia|reflexivity].
Qed.
Lemma up_drive b : forall n, (n < length D)%nat -> up_loop n (D ++ b) = Ret None.
Proof.
  assert (X : forall n, (n < length D)%nat -> exists c, zread (D ++ b) (Z.of_nat n) = Ret c /\ c <> 47).
  { intros n H. exists (nth n D 0). rewrite zread_app1 by (unfold zlen; lia). rewrite (zread_ok 0) by (unfold zlen; lia). unfold znth. rewrite Nat2Z.id.
    split; [reflexivity|]. intros E. apply ND. rewrite <- E. now apply nth_In. }
  induction n as [|n IH]; intros H; cbn [up_loop]; destruct (X _ H) as (c & E & N); rewrite E; cbn [bind]; replace (c =? 47) with false by lia; [reflexivity|]. apply IH. lia.
Qed.
Lemma up_shift b : forall n r, up_loop n b = Ret r -> up_loop (length D + n) (D ++ b) = Ret (option_map (Z.add d) r).
Proof.
  induction n as [|n IH]; intros r E.
  - cbn [up_loop] in E. change (Z.of_nat 0) with 0 in E. destruct (zread b 0) as [c| |] eqn:Z0; try discriminate. cbn [bind] in E.
    rewrite Nat.add_0_r. assert (ZD : zread (D ++ b) (Z.of_nat (length D)) = Ret c) by (rewrite (rd_shift b 0) by (unfold zlen; lia); exact Z0).
    destruct (length D) as [|m] eqn:LD.
    + cbn [up_loop]. rewrite ZD. cbn [bind]. injection E as <-. replace d with 0 by (unfold zlen; lia). destruct (c =? 47); reflexivity.
    + cbn [up_loop]. rewrite ZD. cbn [bind]. injection E as <-. destruct (c =? 47).
      * cbn. do 2 f_equal. unfold zlen. lia.
      * apply up_drive. lia.
  - cbn [up_loop] in E. destruct (zread b (Z.of_nat (S n))) as [c| |] eqn:Z0; try discriminate. cbn [bind] in E.
    replace (length D + S n)%nat with (S (length D + n)) by lia. cbn [up_loop]. rewrite (rd_shift b (Z.of_nat (S n))) by (unfold zlen; lia). rewrite Z0. cbn [bind].
    destruct (c =? 47); [|now apply IH]. injection E as <-. cbn. do 2 f_equal. unfold zlen. lia.
Qed.
Lemma up_range b : forall n k, up_loop n b = Ret (Some k) -> 0 <= k.
Proof.
  induction n as [|n IH]; intros k; cbn [up_loop]; destruct (zread b _) as [c| |]; try discriminate; cbn [bind]; destruct (c =? 47); try discriminate; intros E.
  - now injection E as <-.
  - injection E as <-. lia.
  - now apply IH.
Qed.
Lemma find_shift b os r : 0 <= os -> find_up true b os = Ret r -> find_up true (D ++ b) (d + os) = Ret (option_map (Z.add d) r) /\ forall k, r = Some k -> 0 <= k.
Proof.
  intros H. unfold find_up. destruct (os =? 0) eqn:O.
  - intros E. injection E as <-. split; [|discriminate]. destruct (d + os =? 0) eqn:Z; [reflexivity|]. apply up_drive. unfold zlen in *. lia.
  - intros E. replace (d + os =? 0) with false by (zpos; lia). split; [|intros k ->; now apply up_range in E].
    replace (Z.to_nat (d + os - 1)) with (length D + Z.to_nat (os - 1))%nat by (unfold zlen; lia). now apply up_shift.
Qed.
Definition shift (s : step) : step :=
  match s with Next i ob os => Next (d + i) (D ++ ob) (d + os) | Done ob os => Done (D ++ ob) (d + os) | Failed => Failed end.
Definition fine (i : Z) (s : step) : Prop := match s with Next j _ os => i <= j /\ 0 < os | _ => True end.
Lemma copy_shift R i ob os s : 0 <= i -> 0 <= os -> np_copy R 0 i ob os = Ret s -> np_copy (D ++ R) 0 (d + i) (D ++ ob) (d + os) = Ret (shift s) /\ fine i s.
Proof.
  intros H1 H2 E. unfold np_copy in *. rewrite (rd_shift R (0 + i)) by lia. destruct (zread R (0 + i)) as [c| |]; try discriminate. cbn [bind] in *.
  rewrite (wr_shift ob os) by lia. destruct (zwrite ob os c) as [b| |]; try discriminate. cbn [bind] in *. injection E as <-. cbn. split; [do 2 f_equal; lia|lia].
Qed.
Lemma restore_shift R i ob os s : 0 <= i -> 0 <= os -> np_restore true R 0 i ob os = Ret s -> np_restore true (D ++ R) 0 (d + i) (D ++ ob) (d + os) = Ret (shift s) /\ fine i s.
Proof.
  intros H1 H2 E. unfold np_restore in *. rewrite (rd_shift R (0 + i)) by lia. destruct (zread R (0 + i)) as [c| |]; try discriminate. cbn [bind] in *.
  injection E as <-. destruct (c =? 0); cbn; (split; [do 2 f_equal; lia|lia || exact I]).
Qed.
Lemma fine_le i j s : i <= j -> fine j s -> fine i s.
Proof. destruct s; cbn; lia || auto. Qed.
Lemma step_shift fuel R i ob os s : D <> [] -> (forall x, zread D (d - 1) = Ret x -> x <> 47) -> 0 <= i -> 0 <= os -> (os = 0 -> i = 0) -> (i = 0 -> zread R 0 = Ret 47) ->
  np_step fuel true R 0 i ob os = Ret s -> np_step fuel true (D ++ R) 0 (d + i) (D ++ ob) (d + os) = Ret (shift s) /\ fine i s.
Proof.
  intros DN LD Hi Ho O0 I0 E. assert (dp : 0 < d) by (destruct D; [congruence|]; zl; zpos; lia).
  unfold np_step in *. rewrite (rd_shift R (0 + i)) by lia. destruct (zread R (0 + i)) as [c| |] eqn:C; try discriminate. cbn [bind] in *.
  destruct (c =? 47) eqn:C47.
  - destruct (skip_slashes fuel R 0 i) as [k| |] eqn:SK; try discriminate. cbn [bind] in E. apply skip_shift in SK as [Hk SK]; [|lia]. rewrite SK. cbn [bind].
    replace (d + os =? 0) with false by lia. destruct (os =? 0) eqn:OS.
    + assert (os = 0) by lia. subst os. replace (d + 0 - 1) with (d - 1) by lia. rewrite zread_app1 by lia. rewrite (zread_ok 0) by lia. cbn [bind].
      replace (znth 0 D (d - 1) =? 47) with false by (specialize (LD _ (zread_ok 0 D (d - 1) ltac:(lia))); lia). cbn [negb].
      apply copy_shift in E; [|lia|lia]. destruct E as [E F]. split; [exact E|]. revert F. now apply fine_le.
    + rewrite (rd_shift ob (os - 1)) by lia. destruct (zread ob (os - 1)) as [l| |]; try discriminate. cbn [bind] in *. destruct (negb (l =? 47)).
      * apply copy_shift in E; [|lia|lia]. destruct E as [E F]. split; [exact E|]. revert F. now apply fine_le.
      * injection E as <-. cbn. split; [reflexivity|lia].
  - destruct (c =? 46) eqn:C46.
    + assert (i <> 0). { intros ->. specialize (I0 eq_refl). change (0 + 0) with 0 in C. rewrite I0 in C. injection C as <-. discriminate. }
      assert (os <> 0) by auto.
      replace (i =? 0) with false in E by lia. replace (os =? 0) with false in E by lia. cbn [orb] in E.
      replace (d + i =? 0) with false by lia. replace (d + os =? 0) with false by lia. cbn [orb].
      rewrite (rd_shift R (0 + i - 1)) by lia. destruct (zread R (0 + i - 1)) as [a| |]; try discriminate. cbn [bind] in *.
      rewrite (rd_shift ob (os - 1)) by lia. destruct (if a =? 47 then zread ob (os - 1) else Ret 0) as [l| |]; try discriminate. cbn [bind] in *.
      destruct ((a =? 47) && (l =? 47)); [|apply copy_shift in E; [exact E|lia|lia]].
      rewrite (rd_shift R (0 + i + 1)) by lia. destruct (zread R (0 + i + 1)) as [n| |]; try discriminate. cbn [bind] in *.
      destruct (n =? 46).
      * rewrite (rd_shift R (0 + i + 2)) by lia. destruct (zread R (0 + i + 2)) as [m| |]; try discriminate. cbn [bind] in *.
        destruct ((m =? 0) || (m =? 47)); [|apply copy_shift in E; [exact E|lia|lia]].
        destruct (find_up true ob (os - 1)) as [t| |] eqn:FU; try discriminate. cbn [bind] in E. apply find_shift in FU as [FU P]; [|lia].
        replace (d + os - 1) with (d + (os - 1)) by lia. rewrite FU. cbn [bind]. destruct t as [t|]; cbn [option_map].
        -- specialize (P t eq_refl). replace (d + i + 2) with (d + (i + 2)) by lia. apply restore_shift in E; [|lia|lia]. destruct E as [E F]. split; [exact E|]. revert F. apply fine_le. lia.
        -- injection E as <-. split; [reflexivity|exact I].
      * destruct (n =? 47).
        { replace (d + i + 1) with (d + (i + 1)) by lia. replace (d + os - 1) with (d + (os - 1)) by lia. apply restore_shift in E; [|lia|lia]. destruct E as [E F]. split; [exact E|]. revert F. apply fine_le. lia. }
        destruct (n =? 0).
        { replace (d + os - 1) with (d + (os - 1)) by lia. apply restore_shift in E; [|lia|lia]. exact E. }
        apply copy_shift in E; [exact E|lia|lia].
    + apply copy_shift in E; [exact E|lia|lia].
Qed.
Lemma loop_shift : D <> [] -> (forall x, zread D (d - 1) = Ret x -> x <> 47) -> forall fuel R i ob os r, 0 <= i -> 0 <= os -> (os = 0 -> i = 0) -> (i = 0 -> zread R 0 = Ret 47) ->
  np_loop fuel true R 0 0 i ob os = Ret r ->
  np_loop fuel true (D ++ R) 0 0 (d + i) (D ++ ob) (d + os) = Ret (option_map (fun x => (D ++ fst x, d + snd x)) r).
Proof.
  intros DN LD. induction fuel as [|f IH]; intros R i ob os r Hi Ho O0 I0 E; [discriminate|]. cbn [np_loop] in *.
  rewrite (rd_shift R (0 + i)) by lia. destruct (zread R (0 + i)) as [c| |]; try discriminate. cbn [bind] in *. destruct (negb (negb (c =? 0))).
  { injection E as <-. reflexivity. }
  destruct (np_step (S f) true R 0 i ob os) as [s| |] eqn:ST; try discriminate. apply step_shift in ST; auto. destruct ST as [ST F]. rewrite ST. cbn [bind] in *.
  destruct s as [j b o|b o|]; cbn [shift] in *.
  - replace (d + j + 1) with (d + (j + 1)) by lia. cbn in F. apply IH; auto; lia.
  - injection E as <-. reflexivity.
  - injection E as <-. reflexivity.
Qed.
Lemma finish_shift ob os r : 1 < os -> np_finish ob os = Ret r -> np_finish (D ++ ob) (d + os) = Ret (D ++ fst r, d + snd r).
Proof.
  intros H E. unfold np_finish in *. replace (1 <? os) with true in E by lia. replace (1 <? d + os) with true by (zpos; lia).
  rewrite (rd_shift ob (os - 1)) by lia. destruct (zread ob (os - 1)) as [c| |]; try discriminate. cbn [bind] in *.
  replace (if c =? 47 then d + os - 1 else d + os) with (d + (if c =? 47 then os - 1 else os)) by (destruct (c =? 47); lia).
  rewrite (wr_shift ob (if c =? 47 then os - 1 else os)) by (destruct (c =? 47); lia). destruct (zwrite ob _ 0) as [b| |]; try discriminate. cbn [bind] in *. injection E as <-. reflexivity.
Qed.
End Shift.

(** the drive loop *)
Lemma drive_run : forall D f pre P b J os, no47 D -> nz D -> (length D < f)%nat -> zlen D <= zlen J -> os = zlen b ->
  psp_drive f (pre ++ D ++ P) (zlen pre) (b ++ J) os = psp_drive (f - length D) ((pre ++ D) ++ P) (zlen (pre ++ D)) ((b ++ D) ++ zdrop (zlen D) J) (zlen (b ++ D)).
Proof.
  induction D as [|x D IH]; intros f pre P b J os N Z Hf L ->.
  - rewrite !app_nil_r. cbn [length app]. now rewrite Nat.sub_0_r.
  - destruct f as [|f]; [cbn in Hf; lia|]. cbn [psp_drive]. cbn [app]. rewrite zread_at by auto. cbn [bind]. apply no47_cons in N as [Nx N]. apply Forall_cons_iff in Z as [Zx Z].
    replace (x =? 0) with false by lia. destruct J as [|y J]; [exfalso; revert L; zl; zpos; lia|]. rewrite zwrite_at by auto. cbn [bind]. replace (x =? 47) with false by lia.
    replace (pre ++ x :: D ++ P) with ((pre ++ [x]) ++ D ++ P) by (now rewrite <- app_assoc). replace (b ++ x :: J) with ((b ++ [x]) ++ J) by (now rewrite <- app_assoc).
    replace (zlen pre + 1) with (zlen (pre ++ [x])) by (zl; lia). rewrite (IH f (pre ++ [x]) P (b ++ [x]) J) by (auto; try (cbn in Hf; lia); revert L; zl; lia).
    cbn [length]. replace (S f - S (length D))%nat with (f - length D)%nat by lia. rewrite <- !app_assoc. cbn [app].
    replace (zdrop (zlen (x :: D)) (y :: J)) with (zdrop (zlen D) J); [reflexivity|]. unfold zdrop, zlen. cbn [length]. rewrite !Nat2Z.id. reflexivity.
Qed.
Lemma nz_app a b : nz (a ++ b) -> nz a /\ nz b.
Proof. apply Forall_app. Qed.
Lemma last_colon (n : list Z) x : zread (n ++ [58]) (zlen (n ++ [58]) - 1) = Ret x -> x = 58.
Proof. rewrite zread_at by (zl; lia). congruence. Qed.
(** up to the first slash *)
Lemma drive_ok (D R post o g : list Z) fuel : no47 D -> nz (D ++ 47 :: R) -> zlen o = zlen (D ++ 47 :: R) + 1 -> (length (D ++ 47%Z :: R) < fuel)%nat ->
  exists J, zlen J = zlen (47 :: R) + 1 /\
  psp_drive fuel ((D ++ 47 :: R) ++ 0 :: post) 0 (o ++ g) 0 =
    Ret (if is D [] || (znth 0 D (zlen D - 1) =? 58) then Some (zlen D, D ++ J ++ g, zlen D) else None).
Proof.
  intros N ZZ L F. apply nz_app in ZZ as [ZD ZR].
  pose proof (drive_run D fuel [] ((47 :: R) ++ 0 :: post) [] (o ++ g) 0 N ZD) as H. rewrite app_length in F. cbn [length] in F.
  specialize (H ltac:(lia) ltac:(revert L; zl; zpos; lia) eq_refl). cbn [app] in H. change (zlen (@nil Z)) with 0 in H.
  rewrite <- app_assoc. cbn [app]. rewrite H. clear H.
  assert (X : exists y J, zdrop (zlen D) (o ++ g) = y :: J ++ g /\ zlen J = zlen R + 1).
  { destruct (zdrop (zlen D) o) as [|y J] eqn:E.
    - exfalso. pose proof (zlen_zdrop (zlen D) o ltac:(revert L; zl; zpos; lia)) as W. rewrite E in W. revert W L. zl. zpos. lia.
    - exists y, J. split.
      + unfold zdrop in *. rewrite skipn_app, E. cbn [app]. f_equal. f_equal. replace (_ - _)%nat with 0%nat; [reflexivity|]. revert L. unfold zlen. rewrite app_length. cbn [length]. lia.
      + pose proof (zlen_zdrop (zlen D) o ltac:(revert L; zl; zpos; lia)) as W. rewrite E in W. revert W L. zl. lia. }
  destruct X as (y & J & -> & LJ). destruct (fuel - length D)%nat as [|f] eqn:EF; [lia|]. cbn [psp_drive]. rewrite zread_at by auto. cbn [bind Z.eqb Pos.eqb].
  rewrite zwrite_at by auto. cbn [bind]. exists (47 :: J). split; [zl; lia|].
  destruct (0 <? zlen D) eqn:DP.
  - rewrite zread_app1 by lia. rewrite (zread_ok 0) by lia. cbn [bind]. rewrite is_false by (intros ->; cbn in DP; discriminate). cbn [orb]. destruct (_ =? 58); cbn [negb]; do 2 f_equal; f_equal; lia.
  - assert (D = []) by (apply zlen_0; zpos; lia). subst D. cbn [app]. do 2 f_equal. 
Qed.
Lemma no_drive (t post o g : list Z) fuel : no47 t -> nz t -> zlen o = zlen t + 1 -> (length t < fuel)%nat -> normalizepath_psp fuel (t ++ 0 :: post) (o ++ g) = Ret None.
Proof.
  intros N ZZ L F. unfold normalizepath_psp. pose proof (drive_run t fuel [] (0 :: post) [] (o ++ g) 0 N ZZ F ltac:(revert L; zl; zpos; lia) eq_refl) as H. cbn [app] in H. change (zlen (@nil Z)) with 0 in H.
  rewrite H. destruct (fuel - length t)%nat as [|f] eqn:EF; [lia|]. cbn [psp_drive]. rewrite zread_at by auto. cbn [bind Z.eqb]. rewrite zread_at by auto. reflexivity.
Qed.
Lemma bad_drive (D : list Z) x (R post o g : list Z) fuel : no47 (D ++ [x]) -> x <> 58 -> nz ((D ++ [x]) ++ 47 :: R) -> zlen o = zlen ((D ++ [x]) ++ 47 :: R) + 1 -> (length ((D ++ [x]) ++ 47%Z :: R) < fuel)%nat ->
  normalizepath_psp fuel (((D ++ [x]) ++ 47 :: R) ++ 0 :: post) (o ++ g) = Ret None.
Proof.
  intros N X ZZ L F. unfold normalizepath_psp. destruct (drive_ok (D ++ [x]) R post o g fuel N ZZ L F) as (J & _ & ->).
  rewrite is_false by (destruct D; discriminate). replace (znth 0 (D ++ [x]) (zlen (D ++ [x]) - 1)) with x. 2:{ symmetry. replace (zlen (D ++ [x]) - 1) with (zlen D) by (zl; lia). unfold znth, zlen. rewrite Nat2Z.id. now rewrite nth_middle. }
  replace (x =? 58) with false by lia. reflexivity.
Qed.
Lemma fin_len st O : fin st O -> wf st -> st <> [] -> 1 < zlen O.
Proof.
  intros F W N. assert (P : forall s, 1 <= zlen (enc s)) by (intros s; unfold enc; zl; zpos; lia).
  destruct F as [->|(c & s & -> & ->)].
  - destruct st as [|c s]; [congruence|]. rewrite enc_cons. specialize (P s). zl. zpos. lia.
  - inversion W as [|a b Hc _]; subst. destruct Hc as ((H & _) & _). specialize (P s). destruct c; [congruence|]. zl. zpos. lia.
Qed.
Lemma psp_ok (n R post o g : list Z) fuel : let D := n ++ [58] in no47 n -> nz (D ++ 47 :: R) -> bytes (47 :: R) -> zlen o = zlen (D ++ 47 :: R) + 1 -> zlen o + zlen g < 2 ^ 63 -> (length (D ++ 47%Z :: R) < fuel)%nat ->
  match normal (47 :: R) with
  | None => normalizepath_psp fuel ((D ++ 47 :: R) ++ 0 :: post) (o ++ g) = Ret None
  | Some r => exists k, normalizepath_psp fuel ((D ++ 47 :: R) ++ 0 :: post) (o ++ g) = Ret (Some (D ++ (if is r [47] then [] else r) ++ 0 :: k ++ g))
  end.
Proof.
  intros D Nn ZZ B L LG F. assert (N : no47 D). { intros H. apply in_app_or in H as [H|[H|[]]]; [auto|discriminate]. }
  assert (Dne : D <> []) by (unfold D; destruct n; discriminate).
  unfold normalizepath_psp. destruct (drive_ok D R post o g fuel N ZZ L F) as (J & LJ & ->).
  replace (znth 0 D (zlen D - 1)) with 58. 2:{ unfold D. replace (zlen (n ++ [58]) - 1) with (zlen n) by (zl; lia). unfold znth, zlen. rewrite Nat2Z.id. now rewrite nth_middle. }
  replace (58 =? 58) with true by reflexivity. rewrite orb_true_r. cbn [bind]. rewrite <- app_assoc. cbn [app]. rewrite zread_at by auto. cbn [bind Z.eqb Pos.eqb negb].
  apply nz_app in ZZ as [ZD ZR]. rewrite app_length in F. cbn [length] in F.
  assert (LG' : zlen J + zlen g < 2 ^ 63) by (revert L LG LJ; zl; zpos; lia).
  pose proof (start true [] R post ZR B g J fuel LJ LG' ltac:(cbn [length]; lia)) as S. cbv zeta in S. unfold outcome in S. cbn [app] in S. rewrite (np_size fuel _ _ _ 0) in S. change (zlen (@nil Z)) with 0 in S.
  rewrite normal_slash.
  assert (SH : forall r, np_loop fuel true (47 :: R ++ 0 :: post) 0 0 0 (J ++ g) 0 = Ret r -> np_loop fuel true (D ++ 47 :: R ++ 0 :: post) 0 0 (zlen D) (D ++ J ++ g) (zlen D) = Ret (option_map (fun x => (D ++ fst x, zlen D + snd x)) r)).
  { intros r E. pose proof (loop_shift D N Dne) as H. specialize (H ltac:(intros x Hx; apply last_colon in Hx; lia) fuel (47 :: R ++ 0 :: post) 0 (J ++ g) 0 r). rewrite !Z.add_0_r in H. apply H; auto; lia. }
  destruct (resolve [] (comps R)) as [st|]; cbn [option_map].
  - destruct S as (O & J2 & E & L1 & L2 & W & Fi). rewrite (SH _ E). cbn [bind option_map fst snd].
    assert (NJ : J2 <> []) by (intros ->; revert L1; zl; lia).
    destruct (finish_ok st O J2 g Fi W NJ) as (J' & E1 & L3).
    destruct st as [|c s].
    + cbn [rev join]. destruct Fi as [->|(c & s & X & _)]; [|discriminate]. unfold enc. cbn [rev map concat app]. change (is [47] [47]) with true. cbv iota.
      unfold np_finish. change (zlen [47]) with 1. replace (1 <? zlen D + 1) with true by (assert (zlen D <> 0) by (intros X; apply zlen_0 in X; auto); zpos; lia).
      rewrite zread_at by lia. cbn [bind Z.eqb Pos.eqb]. rewrite zwrite_at by lia. cbn [bind]. exists J2. reflexivity.
    + pose proof (fin_len _ _ Fi W ltac:(discriminate)) as O1. rewrite (finish_shift D _ _ _ O1 E1). cbn [bind fst]. exists J'.
      rewrite is_false; [reflexivity|]. intros X. injection X as X. pose proof (enc_join (c :: s) ltac:(discriminate)) as Y. cbn [rev] in Y. rewrite X in Y.
      destruct Fi as [->|(c' & s' & Q & ->)].
      * rewrite Y in O1. cbn in O1. revert W Y. rewrite enc_cons. intros W Y. inversion W as [|a b Hc _]; subst. destruct Hc as ((H & _) & _). apply (f_equal zlen) in Y. revert Y. unfold enc. destruct c; [congruence|]. zl. zpos. lia.
      * injection Q as <- <-. revert Y. rewrite enc_cons. intros Y. apply (f_equal zlen) in Y. revert Y O1. zl. lia.
  - rewrite (SH _ S). reflexivity.
Qed.
Lemma psp_unix (R post o g : list Z) fuel : nz (47 :: R) -> bytes (47 :: R) -> zlen o = zlen (47 :: R) + 1 -> zlen o + zlen g < 2 ^ 63 -> (length (47%Z :: R) < fuel)%nat ->
  match normal (47 :: R) with
  | None => normalizepath_psp fuel ((47 :: R) ++ 0 :: post) (o ++ g) = Ret None
  | Some r => exists k, normalizepath_psp fuel ((47 :: R) ++ 0 :: post) (o ++ g) = Ret (Some (r ++ 0 :: k ++ g)) /\ zlen (r ++ k) = zlen (47 :: R)
  end.
Proof.
  intros ZZ B L LG F. destruct (drive_ok [] R post o g fuel ltac:(intros []) ZZ L F) as (J & LJ & E). cbn [app] in E. change (is [] [] || _) with true in E. cbv iota in E. change (zlen (@nil Z)) with 0 in E.
  pose proof (normalizepath_cstr_ok fuel (47 :: R) post J g ZZ B LJ ltac:(revert L LG LJ; zl; zpos; lia) F) as H.
  assert (X : normalizepath_psp fuel ((47 :: R) ++ 0 :: post) (o ++ g) = normalizepath_cstr fuel ((47 :: R) ++ 0 :: post) (J ++ g)).
  { unfold normalizepath_psp. cbn [app]. rewrite E. cbn [bind]. unfold normalizepath_cstr. reflexivity. }
  rewrite X. exact H.
Qed.
