(** Proofs for M_listtest: the tests on the memory they get. *)
From Verif Require Import Base M_sblist M_tglist M_tgishort M_hashlist M_tltest M_lstest M_listtest.
Fixpoint patch {B} (al : nat -> B) (ps : list (nat * B)) (k : nat) : B := match ps with [] => al k | (n, b) :: ps => if Nat.eqb n k then b else patch al ps k end.
Lemma patch_eq {B} (al : nat -> B) ps : Forall (fun p => al (fst p) = snd p) ps -> forall k, al k = patch al ps k.
Proof. intros H k. induction H as [|[n b] ps E H IH]; [reflexivity|]. cbn [patch]. destruct (Nat.eqb_spec n k) as [->|]; [exact E|exact IH]. Qed.
Definition same_impl {L A} (i i' : impl L A) := (forall k l x, i_add i k l x = i_add i' k l x) /\ (forall k l x p, i_ins i k l x p = i_ins i' k l x p) /\ i_del i = i_del i' /\ i_size i = i_size i' /\ i_get i = i_get i'.
Lemma script_ext {L A} (i i' : impl L A) : same_impl i i' -> forall ss k l, script i k l ss = script i' k l ss.
Proof.
  intros (Ha & Hi & Hd & Hs & Hg). induction ss as [|[x|x p|p|n|p q] ss IH]; intros k l; [reflexivity|..]; cbn [script]; rewrite ?Ha, ?Hi, ?Hd, ?Hs, ?Hg.
  all: try (destruct (i_add i' k l x)); try (destruct (i_ins i' k l x p)); try (destruct (i_del i' l p)); try (destruct (i_get i' l p)); cbn [bind]; try (rewrite IH); try reflexivity.
Qed.
Lemma scripts_ext {L A} (i i' : impl L A) : same_impl i i' -> forall t k, scripts i k t = scripts i' k t.
Proof. intros H. induction t as [|[l ss] t IH]; intros k; [reflexivity|]. cbn [scripts]. rewrite (script_ext i i' H). destruct (script i' k l ss) as [[[k' l']|]| |]; cbn [bind]; rewrite ?IH; reflexivity. Qed.
Lemma sb_ext {A} enc (dec : list Z -> A) al al' : (forall k, al k = al' k) -> same_impl (sb_impl enc dec al) (sb_impl enc dec al').
Proof. intros H. repeat split; intros; cbn; rewrite H; reflexivity. Qed.
Lemma tg_ext {A} isz (al al' : nat -> talloc A) : (forall k, al k = al' k) -> same_impl (tg_impl isz al) (tg_impl isz al').
Proof. intros H. repeat split; intros; cbn; rewrite H; reflexivity. Qed.
Lemma sb_insert_ext al ps : Forall (fun p => al (fst p) = snd p) ps -> sblist_insert_test al = sblist_insert_test (patch al ps).
Proof. intros H. unfold sblist_insert_test, ints. cbn [sblist_init Z.eqb bind]. apply scripts_ext, sb_ext, patch_eq, H. Qed.
Ltac case_al lem al k ps run :=
  let E := fresh "E" in let j := fresh "j" in destruct (al k) as [j|] eqn:E;
  [ run ((k, Some j) :: ps)
  | rewrite (lem al (rev ((k, None) :: ps))) by (cbn; repeat constructor; cbn; assumption);
    let g := match goal with |- ?t = _ <-> _ => t end in let v := eval vm_compute in g in replace g with v by (vm_cast_no_check (eq_refl v));
    split; [discriminate|]; let F := fresh in intros F; exfalso; rewrite Forall_forall in F; apply (F k); [cbn; tauto|exact E] ].
Ltac fin lem al ps :=
    rewrite (lem al (rev ps)) by (cbn; repeat constructor; cbn; assumption);
    let g := match goal with |- ?t = _ <-> _ => t end in let v := eval vm_compute in g in replace g with v by (vm_cast_no_check (eq_refl v));
    split; [intros _; repeat constructor; congruence|reflexivity].
Ltac all_al lem al ks ps := lazymatch ks with [] => fin lem al ps | ?k :: ?ks => case_al lem al k ps ltac:(fun ps => all_al lem al ks ps) end.
Lemma sb_insert_iff al : sblist_insert_test al = Ret true <-> Forall (fun k => al k <> None) [0;4;5;6;7;8;9;10;11]%nat.
Proof. match goal with |- _ <-> Forall _ ?ks => all_al sb_insert_ext al ks (@nil (nat * alloc)) end. Qed.

(** ** too few additions *)
Section Few.
Context {L A : Type}.
Variable im : impl L A.
Hypothesis Hadd : forall k l x l', 0 <= i_size im l -> i_add im k l x = Ret l' -> 0 <= i_size im l' <= i_size im l + 1.
Lemma few ss n xs : forall k l, 0 <= i_size im l -> i_size im l + zlen xs < n -> forall k' l', script im k l (map TAdd xs ++ TSize n :: ss) <> Ret (Some (k', l')).
Proof using All.
  induction xs as [|x xs IH]; intros k l N B k' l'; cbn [map app script].
  - change (zlen []) with 0 in B. replace (i_size im l =? n) with false by lia. discriminate.
  - rewrite zlen_cons in B. destruct (i_add im k l x) as [l1| |] eqn:E; cbn [bind]; try discriminate. destruct (Hadd _ _ _ _ N E). apply IH; lia.
Qed.
Lemma script_app a : forall b k l, script im k l (a ++ b) = let* r := script im k l a in match r with None => Ret None | Some (k, l) => script im k l b end.
Proof.
  induction a as [|[x|x p|p|n|p q] a IH]; intros b k l; [reflexivity|..]; cbn [app script].
  - destruct (i_add im k l x); cbn [bind]; auto.
  - destruct (i_ins im k l x p); cbn [bind]; auto.
  - destruct (i_del im l p); cbn [bind]; auto.
  - destruct (i_size im l =? n); auto.
  - destruct (i_get im l p) as [x| |]; cbn [bind]; auto. destruct (q x) as [[]| |]; cbn [bind]; auto.
Qed.
Lemma scripts_one k l ss : scripts im k [(l, ss)] = Ret true <-> exists k' l', script im k l ss = Ret (Some (k', l')).
Proof. cbn [scripts]. destruct (script im k l ss) as [[[k' l']|]| |]; cbn [bind]; split; try discriminate; try (intros (? & ? & H); discriminate); eauto. Qed.
End Few.
Lemma u64_le x : 0 <= x -> 0 <= u64 x <= x.
Proof. intros H. unfold u64. split; [apply Z.mod_pos_bound; lia|apply Z.mod_le; lia]. Qed.
Lemma sb_few {A} enc (dec : list Z -> A) al k l x l' : 0 <= i_size (sb_impl enc dec al) l -> i_add (sb_impl enc dec al) k l x = Ret l' -> 0 <= i_size (sb_impl enc dec al) l' <= i_size (sb_impl enc dec al) l + 1.
Proof.
  cbn [sb_impl i_size i_add]. intros N. unfold sblist_add. assert (G : M_sblist.cnt (snd (sblist_grow_if_needed (al k) l)) = M_sblist.cnt l) by (unfold sblist_grow_if_needed; destruct (_ =? _), (al k); reflexivity).
  destruct (sblist_grow_if_needed (al k) l) as [ok l1]. cbn [snd] in G. pose proof (u64_le (M_sblist.cnt l + 1) ltac:(lia)). destruct (ok =? 0).
  - cbn [bind]. intros E. injection E as <-. lia.
  - unfold sblist_set, inc_count. cbn [M_sblist.cnt M_sblist.isz bits capa mem]. rewrite G. destruct (_ <=? _); cbn [bind].
    + intros E. injection E as <-. cbn [M_sblist.cnt]. lia.
    + destruct (zwrites _ _ _); cbn [bind]; try discriminate. intros E. injection E as <-. cbn [M_sblist.cnt]. lia.
Qed.
Lemma tg_few {A} isz (al : nat -> talloc A) k l x l' : 0 <= i_size (tg_impl isz al) l -> i_add (tg_impl isz al) k l x = Ret l' -> 0 <= i_size (tg_impl isz al) l' <= i_size (tg_impl isz al) l + 1.
Proof.
  cbn [tg_impl i_size i_add]. intros N. unfold tglist_add, tglist_prepare_addition. assert (G : tcnt (snd (tglist_grow_if_needed isz (al k) l)) = tcnt l) by (unfold tglist_grow_if_needed; destruct (_ =? _), (al k); reflexivity).
  destruct (tglist_grow_if_needed isz (al k) l) as [ok l1]. cbn [snd] in G. pose proof (u64_le (tcnt l + 1) ltac:(lia)). rewrite G. destruct (negb (ok =? 0)).
  - set (b := negb (_ =? _)). destruct b.
    + unfold tglist_set. cbn [tcnt tcapa tmem]. destruct (zwrite _ _ _); cbn [bind]; try discriminate. intros E. injection E as <-. cbn [tcnt]. lia.
    + cbn [bind]. intros E. injection E as <-. cbn [tcnt]. lia.
  - cbn [Z.eqb negb bind]. intros E. injection E as <-. lia.
Qed.
Lemma sb_delete_iff al : sblist_delete_test al = Ret true <-> al 0%nat <> None.
Proof.
  unfold sblist_delete_test. cbn [sblist_init Z.eqb bind]. set (enc := fun c => [u8 c]). set (dec := fun b => znth 0 b 0). destruct (al 0%nat) as [j|] eqn:E.
  - rewrite (scripts_ext _ (sb_impl enc dec (patch al [(0%nat, Some j)]))) by (apply sb_ext, patch_eq; repeat constructor; exact E). split; [discriminate|]. intros _. vm_compute. reflexivity.
  - split; [|congruence]. rewrite scripts_one. intros (k' & l' & H). exfalso. revert H.
    change sb_delete_steps with ([TSize 0; TDel 5; TDel 0; TDel minus1; TSize 0; TAdd 0] ++ map TAdd (map Z.of_nat (seq 1 15)) ++ TSize 16 :: skipn 22 sb_delete_steps). rewrite script_app.
    rewrite (script_ext _ (sb_impl enc dec (patch al [(0%nat, None)]))) by (apply sb_ext, patch_eq; repeat constructor; exact E).
    match goal with |- bind ?e _ = _ -> _ => let v := eval vm_compute in e in replace e with v by (vm_cast_no_check (eq_refl v)) end. cbn [bind].
    apply few; [apply sb_few|cbn; lia|cbn; lia].
Qed.
Definition tg_rest (n : nat) := map TAdd (map Z.of_nat (seq n (16 - n))) ++ TSize 16 :: skipn 18 tg_delete_steps.
Lemma tg_delete_iff al : tglist_delete_test al = Ret true <-> al 0%nat <> None /\ al 4%nat <> None /\ al 8%nat <> None.
Proof.
  unfold tglist_delete_test.
  assert (F : forall n ps, (1 <= n <= 9)%nat -> Forall (fun p => al (fst p) = snd p) ps -> (exists l, script (tg_impl 1 (patch al ps)) 0 tglist_init (firstn (n + 1) tg_delete_steps) = Ret (Some (n, l)) /\ tcnt l = Z.of_nat n - 1) -> scripts (tg_impl 1 al) 0 [(tglist_init, tg_delete_steps)] <> Ret true).
  { intros n ps Hn Fp (l & E & C) H. rewrite scripts_one in H. destruct H as (k' & l' & H). revert H.
    assert (ED : tg_delete_steps = firstn (n + 1) tg_delete_steps ++ tg_rest n) by (do 10 (destruct n as [|n]; [try lia; vm_compute; reflexivity|]); lia). rewrite ED, script_app.
    rewrite (script_ext _ (tg_impl 1 (patch al ps)) (tg_ext _ _ _ (patch_eq al ps Fp)) (firstn (n + 1) tg_delete_steps)), E. cbn [bind]. unfold tg_rest. apply few; [apply tg_few|cbn; lia|]. cbn [tg_impl i_size]. rewrite C, !zlen_map. unfold zlen. rewrite seq_length. lia. }
  destruct (al 0%nat) as [j0|] eqn:E0; [destruct (al 4%nat) as [j4|] eqn:E4; [destruct (al 8%nat) as [j8|] eqn:E8|]|].
  - rewrite (scripts_ext _ (tg_impl 1 (patch al [(0%nat, Some j0); (4%nat, Some j4); (8%nat, Some j8)]))) by (apply tg_ext, patch_eq; repeat constructor; assumption). split; [repeat split; congruence|]. intros _. vm_compute. reflexivity.
  - split; [|intros (_ & _ & H); congruence]. intros H. exfalso. revert H. apply (F 9%nat [(0%nat, Some j0); (4%nat, Some j4); (8%nat, None)]); [lia|repeat constructor; assumption|]. eexists. split; vm_compute; reflexivity.
  - split; [|intros (_ & H & _); congruence]. intros H. exfalso. revert H. apply (F 5%nat [(0%nat, Some j0); (4%nat, None)]); [lia|repeat constructor; assumption|]. eexists. split; vm_compute; reflexivity.
  - split; [|intros (H & _); congruence]. intros H. exfalso. revert H. apply (F 1%nat [(0%nat, None)]); [lia|repeat constructor; assumption|]. eexists. split; vm_compute; reflexivity.
Qed.
Lemma hashlist_iff newok al : hashlist_test newok al = Ret true <-> newok 0%nat = true /\ al 0%nat <> None /\ newok 2%nat = true /\ al 2%nat <> None.
Proof.
  unfold hashlist_test. destruct (newok 0%nat), (al 0%nat) as [j0|].
  2-4: split; [|intros (? & ? & ? & ?); congruence]; destruct (newok 1%nat), (al 1%nat) as [j1|]; vm_compute; discriminate.
  destruct (newok 2%nat), (al 2%nat) as [j2|].
  - split; [intros _; repeat split; congruence|]. intros _. destruct (al 1%nat), (al 3%nat), (al 4%nat); vm_compute; reflexivity.
  - split; [|intros (? & ? & ? & ?); congruence]. destruct (al 3%nat), (al 4%nat); vm_compute; discriminate.
  - split; [|intros (? & ? & ? & ?); congruence]. destruct (newok 3%nat), (newok 4%nat), (al 3%nat), (al 4%nat); vm_compute; discriminate.
  - split; [|intros (? & ? & ? & ?); congruence]. destruct (newok 3%nat), (newok 4%nat), (al 3%nat), (al 4%nat); vm_compute; discriminate.
Qed.
