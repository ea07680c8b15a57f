(** Proofs for the interleaved crc32. *)
From Verif Require Import Base M_crc32 S_crc32 D_crc32 P_crc32 M_crcthr.

Fixpoint eval (ts : list (list Z)) (p : prog) : out Z :=
  match p with Fin st => Ret st | Load j i k => let* v := T_at ts j i in eval ts (k v) end.
(** the tables when InitTables has been through *)
Definition ready (ts : list (list Z)) : shared := mkSh (repeat true 4) ts.
Definition keeps_b (ts : list (list Z)) (a : act) : bool :=
  match a with
  | Ptr j => (0 <=? j) && (j <? 4)
  | Store j i v => (0 <=? j) && (j <? 4) && match T_at ts j i with Ret w => w =? v | _ => false end
  end.
Lemma zwrite_same {A} (l : list A) i x : zread l i = Ret x -> zwrite l i x = Ret l.
Proof.
  intros E. assert (H : 0 <= i < zlen l). { unfold zread in E. destruct (0 <=? i) eqn:Q; [|discriminate]. destruct (nth_error l (Z.to_nat i)) eqn:N; [|discriminate]. assert (Z.to_nat i < length l)%nat by (apply nth_error_Some; congruence). unfold zlen. lia. }
  rewrite (zread_ok x) in E by lia. injection E as E. rewrite (zsplit1 x i l) at 1 by lia. rewrite zwrite_at by (rewrite zlen_ztake; lia). f_equal. rewrite (zsplit1 x i l) at 3 by lia. now rewrite E.
Qed.
Lemma keeps ts a : keeps_b ts a = true -> do_act (ready ts) a = Ret (ready ts).
Proof.
  destruct a as [j|j i v]; cbn [keeps_b do_act ready ptrs tabs]; intros H.
  - assert (C : j = 0 \/ j = 1 \/ j = 2 \/ j = 3) by lia. destruct C as [->|[->|[->| ->]]]; reflexivity.
  - apply andb_true_iff in H as [H E]. assert (C : zread (repeat true 4) j = Ret true). { assert (C : j = 0 \/ j = 1 \/ j = 2 \/ j = 3) by lia. destruct C as [->|[->|[->| ->]]]; reflexivity. }
    rewrite C. cbn [bind]. unfold T_at in E. destruct (zread ts j) as [t| |] eqn:R; cbn [bind] in *; try discriminate. destruct (zread t i) as [w| |] eqn:W; try discriminate. apply Z.eqb_eq in E. subst w. rewrite (zwrite_same t i v W). cbn [bind]. rewrite (zwrite_same ts j t R). reflexivity.
Qed.
Definition all_keep (a : out (list (list Z))) (l : list act) : bool := match a with Ret ts => forallb (keeps_b ts) l | _ => false end.
Lemma all_keep_ok a l ts k : all_keep a l = true -> a = Ret ts -> Forall (fun x => keeps_b ts x = true) (concat (repeat l k)).
Proof.
  intros H ->. cbn [all_keep] in H. rewrite forallb_forall in H. apply Forall_forall. intros x I. apply in_concat in I as (l' & I1 & I2). apply repeat_spec in I1. subst l'. now apply H.
Qed.
Lemma acts32 : all_keep (InitTables POLY32) (init_acts POLY32) = true.
Proof. vm_compute. reflexivity. Qed.
Lemma acts32c : all_keep (InitTables POLY32C) (init_acts POLY32C) = true.
Proof. vm_compute. reflexivity. Qed.
Definition same_b (a : out (list (list Z))) (b : out shared) : bool :=
  match a, b with
  | Ret ts, Ret s => (if list_eq_dec Bool.bool_dec (ptrs s) (repeat true 4) then true else false) && (if list_eq_dec (list_eq_dec Z.eq_dec) (tabs s) ts then true else false)
  | _, _ => false
  end.
Lemma same_ok a b ts : same_b a b = true -> a = Ret ts -> b = Ret (ready ts).
Proof.
  intros H ->. destruct b as [s| |]; try discriminate. unfold same_b in H. destruct (list_eq_dec Bool.bool_dec _ _) as [P|]; [|discriminate]. destruct (list_eq_dec _ _ _) as [T|]; [|discriminate]. destruct s as [p t]. cbn [ptrs tabs] in P, T. now subst.
Qed.
Lemma start32 : same_b (InitTables POLY32) (alone start (init_acts POLY32)) = true.
Proof. vm_compute. reflexivity. Qed.
Lemma start32c : same_b (InitTables POLY32C) (alone start (init_acts POLY32C)) = true.
Proof. vm_compute. reflexivity. Qed.
Lemma ready_start poly ts : same_b (InitTables poly) (alone start (init_acts poly)) = true -> InitTables poly = Ret ts -> alone start (init_acts poly) = Ret (ready ts).
Proof. exact (same_ok _ _ ts). Qed.
(** Update by itself *)
Lemma bytes_eval ts : forall l p q st, (length l < 4)%nat -> eval ts (update_prog l st) = update_bytes (length l) ts st (p ++ l ++ q) (zlen p).
Proof.
  assert (X : forall l b p q st, (forall p' st', eval ts (update_prog l st') = update_bytes (length l) ts st' (p' ++ l ++ q) (zlen p')) -> (length l < 3)%nat ->
    eval ts (update_prog (b :: l) st) = update_bytes (S (length l)) ts st (p ++ b :: l ++ q) (zlen p)).
  { intros l b p q st IH L. rewrite update_bytes_S, zread_at, bind_ret by reflexivity. replace (update_prog (b :: l) st) with (Load 0 (Z.lxor (Z.land st 0xff) b) (fun t => update_prog l (Z.lxor (Z.shiftr st 8) t))) by (destruct l as [|? [|? [|? ?]]]; [reflexivity|reflexivity|reflexivity|cbn in L; lia]).
    cbn [eval]. destruct (T_at ts 0 _) as [t| |]; [|reflexivity|reflexivity]. rewrite !bind_ret. rewrite (IH (p ++ [b])). rewrite <- app_assoc. replace (zlen (p ++ [b])) with (zlen p + 1) by (zl; lia). reflexivity. }
  induction l as [|b l IH]; intros p q st L; [reflexivity|]. cbn [length app]. apply X; [intros; apply IH|]; cbn in L; lia.
Qed.
Lemma update_eval ts : forall f l p q st, (length l <= f)%nat -> eval ts (update_prog l st) = Update (S f) ts st (p ++ l ++ q) (zlen p) (zlen l).
Proof.
  induction f as [|f IH]; intros l p q st Lf.
  - destruct l; [|cbn in Lf; lia]. reflexivity.
  - rewrite Update_S. destruct (4 <=? zlen l) eqn:L4.
    + destruct l as [|b0 [|b1 [|b2 [|b3 l]]]]; try discriminate L4.
      assert (R : forall u v r k, b0 :: b1 :: b2 :: b3 :: l = u ++ v :: r -> k = zlen u -> zread (p ++ (b0 :: b1 :: b2 :: b3 :: l) ++ q) (zlen p + k) = Ret v).
      { intros u v r k E ->. rewrite E. rewrite <- app_assoc. cbn [app]. rewrite app_assoc. apply zread_at. zl. lia. }
      change (update_prog (b0 :: b1 :: b2 :: b3 :: l) st) with (Load 0 (Z.lxor (Z.land (Z.shiftr st 24) 0xff) b3) (fun t0 =>
        Load 1 (Z.lxor (Z.land (Z.shiftr st 16) 0xff) b2) (fun t1 =>
        Load 2 (Z.lxor (Z.land (Z.shiftr st 8) 0xff) b1) (fun t2 =>
        Load 3 (Z.lxor (Z.land st 0xff) b0) (fun t3 => update_prog l (Z.lxor (Z.lxor (Z.lxor t0 t1) t2) t3)))))).
      cbn [eval].
      rewrite (R [b0; b1; b2] b3 l 3) by reflexivity. rewrite bind_ret. destruct (T_at ts 0 _) as [t0| |]; [|reflexivity|reflexivity]. rewrite !bind_ret.
      rewrite (R [b0; b1] b2 (b3 :: l) 2) by reflexivity. rewrite bind_ret. destruct (T_at ts 1 _) as [t1| |]; [|reflexivity|reflexivity]. rewrite !bind_ret.
      rewrite (R [b0] b1 (b2 :: b3 :: l) 1) by reflexivity. rewrite bind_ret. destruct (T_at ts 2 _) as [t2| |]; [|reflexivity|reflexivity]. rewrite !bind_ret.
      pose proof (R [] b0 (b1 :: b2 :: b3 :: l) 0 eq_refl eq_refl) as R0. rewrite Z.add_0_r in R0. rewrite R0. rewrite bind_ret. destruct (T_at ts 3 _) as [t3| |]; [|reflexivity|reflexivity]. rewrite !bind_ret.
      replace (zlen p + 4) with (zlen (p ++ [b0; b1; b2; b3])) by (zl; lia). replace (zlen (b0 :: b1 :: b2 :: b3 :: l) - 4) with (zlen l) by (zl; lia).
      replace (p ++ (b0 :: b1 :: b2 :: b3 :: l) ++ q) with ((p ++ [b0; b1; b2; b3]) ++ l ++ q) by (now rewrite <- app_assoc).
      cbn [length] in Lf. apply IH. lia.
    + replace (Z.to_nat (zlen l)) with (length l) by (unfold zlen; lia). apply bytes_eval. unfold zlen in L4. lia.
Qed.
(** p ends within n loads *)
Fixpoint ends (ts : list (list Z)) (n : nat) (p : prog) : Prop :=
  match p with
  | Fin _ => True
  | Load j i k => match n with O => False | S n => (0 <= j < 4) /\ forall v, ends ts n (k v) end
  end.
Lemma ends_update ts : forall f l st, (length l <= f)%nat -> ends ts (length l) (update_prog l st).
Proof.
  induction f as [|f IH]; intros l st L; [destruct l; [exact I|cbn in L; lia]|]. destruct l as [|b0 l]; [exact I|]. cbn in L.
  destruct l as [|b1 [|b2 [|b3 l]]]; cbn [update_prog length ends]; repeat (split; [lia|]; intros); try exact I. apply IH. cbn in L. lia.
Qed.
Lemma ends_more ts : forall n m p, (n <= m)%nat -> ends ts n p -> ends ts m p.
Proof.
  induction n as [|n IH]; intros m p L E; (destruct p as [st|j i k]; [destruct m; exact I|]); [destruct E|]. destruct m as [|m]; [lia|]. destruct E as [J E]. split; [exact J|]. intros v. apply (IH m); [lia|apply E].
Qed.
(** a thread on its way: w is what it was for, c how many turns it had *)
Definition on_way (ts : list (list Z)) (w : work) (c : nat) (t : thread) : Prop :=
  match w, t with
  | WInit _, TInit l => Forall (fun a => keeps_b ts a = true) l
  | WCrc data, TCrc p => eval ts p = eval ts (update_prog data Init) /\ ends ts (length data - c) p
  | _, _ => False
  end.
Definition fine (ts : list (list Z)) (w : work) : Prop := match w with WInit _ => True | WCrc data => exists st, eval ts (update_prog data Init) = Ret st end.
Lemma load_ready ts j i : 0 <= j < 4 -> do_load (ready ts) j i = T_at ts j i.
Proof. intros H. unfold do_load, ready. cbn [ptrs tabs]. assert (C : j = 0 \/ j = 1 \/ j = 2 \/ j = 3) by lia. destruct C as [->|[->|[->| ->]]]; reflexivity. Qed.
Lemma step_way ts w c t : fine ts w -> on_way ts w c t -> exists t', tstep (ready ts) t = Ret (ready ts, t') /\ on_way ts w (S c) t'.
Proof.
  destruct w as [n|data], t as [l|p]; cbn [fine on_way]; intros F H; try contradiction.
  - destruct l as [|a l]; [exists (TInit []); split; [reflexivity|constructor]|]. inversion H as [|x y Ha Hl]; subst. exists (TInit l). cbn [tstep]. rewrite (keeps _ _ Ha). split; [reflexivity|exact Hl].
  - destruct H as [E N]. destruct p as [st|j i k]; [exists (TCrc (Fin st)); split; [reflexivity|split; [exact E|destruct (length data - S c)%nat; exact I]]|]. cbn [ends] in N. destruct (length data - c)%nat as [|m] eqn:Q; [destruct N|]. destruct N as [J N].
    cbn [tstep]. rewrite (load_ready ts j i J). destruct F as [st F]. rewrite F in E. cbn [eval] in E. destruct (T_at ts j i) as [v| |]; cbn [bind] in *; try discriminate. exists (TCrc (k v)). split; [reflexivity|]. split; [now rewrite F|]. apply (ends_more ts m); [lia|apply N].
Qed.
Lemma replace_nth {A} (l : list A) n x m : (n < length l)%nat -> nth_error (firstn n l ++ x :: skipn (S n) l) m = if Nat.eq_dec n m then Some x else nth_error l m.
Proof.
  revert n m. induction l as [|y l IH]; intros n m L; [cbn in L; lia|]. destruct n as [|n]; [destruct m; reflexivity|]. destruct m as [|m]; [reflexivity|]. cbn [firstn skipn app nth_error]. cbn in L. specialize (IH n m ltac:(lia)). change (skipn (S n) (y :: l)) with (skipn n l) in *. cbn [skipn] in IH |- *. rewrite IH. destruct (Nat.eq_dec n m), (Nat.eq_dec (S n) (S m)); (reflexivity || congruence || lia).
Qed.
Lemma run_way ts ws : Forall (fine ts) ws -> forall sched ths cs,
  length ths = length ws -> (forall n w, nth_error ws n = Some w -> exists t, nth_error ths n = Some t /\ on_way ts w (cs n) t) ->
  exists ths', interleave sched (ready ts) ths = Ret (ready ts, ths') /\ length ths' = length ws /\
    forall n w, nth_error ws n = Some w -> exists t, nth_error ths' n = Some t /\ on_way ts w (cs n + count_occ Nat.eq_dec sched n) t.
Proof.
  intros F. induction sched as [|m sched IH]; intros ths cs L H.
  - exists ths. split; [reflexivity|]. split; [exact L|]. intros n w E. cbn [count_occ]. rewrite Nat.add_0_r. now apply H.
  - cbn [interleave]. destruct (nth_error ths m) as [t|] eqn:Em.
    + assert (Lm : (m < length ths)%nat) by (apply nth_error_Some; congruence). destruct (nth_error ws m) as [w|] eqn:Ew; [|apply nth_error_None in Ew; lia].
      destruct (H m w Ew) as (t0 & E0 & W0). rewrite Em in E0. injection E0 as <-. rewrite Forall_forall in F. destruct (step_way ts w (cs m) t (F w (nth_error_In _ _ Ew)) W0) as (t' & -> & W'). cbn [bind].
      destruct (IH (firstn m ths ++ t' :: skipn (S m) ths) (fun n => if Nat.eq_dec m n then S (cs n) else cs n)) as (ths' & E & L' & H').
      * rewrite app_length, firstn_length. cbn [length]. rewrite skipn_length. lia.
      * intros n w' En. rewrite replace_nth by exact Lm. destruct (Nat.eq_dec m n) as [<-|]; [|now apply H]. rewrite Ew in En. injection En as <-. exists t'. auto.
      * exists ths'. split; [exact E|]. split; [exact L'|]. intros n w' En. destruct (H' n w' En) as (t2 & E2 & W2). exists t2. split; [exact E2|]. cbn [count_occ]. destruct (Nat.eq_dec m n); [|exact W2]. replace (cs n + S _)%nat with (S (cs n) + count_occ Nat.eq_dec sched n)%nat by lia. exact W2.
    + destruct (IH ths cs L H) as (ths' & E & L' & H'). exists ths'. split; [exact E|]. split; [exact L'|]. intros n w En. destruct (H' n w En) as (t2 & E2 & W2). exists t2. split; [exact E2|]. cbn [count_occ]. destruct (Nat.eq_dec m n); [|exact W2]. exfalso. subst m. apply nth_error_None in Em. assert (n < length ws)%nat by (apply nth_error_Some; congruence). lia.
Qed.
Lemma start_way poly ts ws : all_keep (InitTables poly) (init_acts poly) = true -> InitTables poly = Ret ts -> forall n w, nth_error ws n = Some w ->
  exists t, nth_error (map (thread_of poly) ws) n = Some t /\ on_way ts w 0 t.
Proof.
  intros C E n w En. exists (thread_of poly w). split; [now apply map_nth_error|]. destruct w as [k|data]; cbn [thread_of on_way].
  - exact (all_keep_ok _ _ ts k C E).
  - split; [reflexivity|]. rewrite Nat.sub_0_r. now apply (ends_update ts (length data)).
Qed.
(** what Update leaves and what Final makes of it *)
Lemma crc_value poly ts data u v : poly = POLY32 \/ poly = POLY32C -> InitTables poly = Ret ts -> bytes data -> zlen u = 4 ->
  exists st, eval ts (update_prog data Init) = Ret st /\ exists c s', Final (u ++ v) st = Ret (s', c ++ v) /\ zlen c = 4 /\ wire_bits c = crc poly data.
Proof.
  intros P E B L.
  assert (F : Forall (fun c => bytes (chunk c)) [(([] : list Z), data, ([] : list Z))]) by (constructor; [exact B|constructor]).
  assert (R : exists c, crc_run poly (u ++ v) [([], data, [])] = Ret (c ++ v) /\ zlen c = 4 /\ bytes c /\ wire_bits c = crc poly (concat (map chunk [([], data, [])]))).
  { destruct P as [-> | ->]; [destruct gen32 as [G R]; exact (run_ok POLY32 RP32 _ u v check32 G R F L)|destruct gen32c as [G R]; exact (run_ok POLY32C RP32C _ u v check32c G R F L)]. }
  destruct R as (c & R & Lc & _ & W). unfold crc_run in R. rewrite E, bind_ret in R. cbn [updates] in R. rewrite <- (update_eval ts (length data) data [] []) in R by lia.
  destruct (eval ts (update_prog data Init)) as [st| |]; try discriminate R. rewrite !bind_ret in R. exists st. split; [reflexivity|]. destruct (Final (u ++ v) st) as [[s' c']| |]; try discriminate R. cbn [bind] in R. injection R as ->. exists c, s'. split; [reflexivity|]. split; [exact Lc|]. cbn [map concat chunk fst snd] in W. now rewrite app_nil_r in W.
Qed.
