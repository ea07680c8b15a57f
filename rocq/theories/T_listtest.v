(** C108: the test programs of the lists. *)
From Coq Require Import Permutation.
From Verif Require Import Base M_sblist M_tglist M_hashlist M_tltest M_lstest M_listtest S_listtest D_tgsort P_sblist P_tglist P_listtest P_listtest2.

(** any test with valid positions, on a new sblist, tglist or tgilist and with memory: its assertions hold just if they hold for plain lists *)
Theorem c108_any_sblist_test {A} (enc : A -> list Z) (dec : list Z -> A) (al : nat -> alloc) sz b ss r : (forall k, al k <> None) -> 1 <= sz -> 1 <= b -> (zlen (stored ss) + b) * sz < 2 ^ 64 ->
  Forall (fun x => zlen (enc x) = sz /\ dec (enc x) = x) (stored ss) -> should [] ss = Some r ->
  exists l0 o, sblist_init sz b = Ret l0 /\ script (sb_impl enc dec al) 0 l0 ss = Ret o /\ (o = None <-> r = None).
Proof.
  intros Ha Hs Hb HL F E. destruct (init_ok sz b Hs Hb) as (l0 & -> & I1 & I2 & I3). exists l0.
  assert (R0 : Rsb enc dec sz b (zlen (stored ss) + b) (0 + zlen (stored ss)) l0 []) by (zpos; split; [apply I3; lia|]; repeat split; auto; change (zlen (@nil A)) with 0; lia).
  pose proof (sb_script enc dec al sz b (zlen (stored ss) + b) Ha HL ss 0 0%nat l0 [] r ltac:(lia) R0 F E) as H.
  destruct r as [ys|]; [destruct H as (l' & H & _)|]; rewrite H; eexists; (split; [reflexivity|]); (split; [reflexivity|]); split; congruence.
Qed.
Theorem c108_any_tglist_test {A} (al : nat -> talloc A) sz ss r : (forall k, al k <> None) -> 1 <= sz -> (2 * zlen (stored ss) + 4) * sz < 2 ^ 64 -> should [] ss = Some r ->
  exists o, script (tg_impl sz al) 0 tglist_init ss = Ret o /\ (o = None <-> r = None).
Proof.
  intros Ha Hs HL E. assert (R0 : Rtg sz (0 + zlen (stored ss)) (@tglist_init A) []) by (split; [apply init_trep|]; change (zlen (@nil A)) with 0; replace (0 + (0 + zlen (stored ss))) with (zlen (stored ss)) by lia; exact HL).
  pose proof (tg_script al sz Ha Hs ss 0 0%nat tglist_init [] r ltac:(lia) R0 E) as H.
  destruct r as [ys|]; [destruct H as (l' & H & _)|]; rewrite H; eexists; (split; [reflexivity|]); split; congruence.
Qed.
Theorem c108_any_tgilist_test {A} (ai : nat -> talloc Z) (av : nat -> talloc A) sz ss r : (forall k, ai k <> None) -> (forall k, av k <> None) -> 1 <= sz <= 2 ^ 40 -> should [] ss = Some r ->
  (zlen (stored ss) <= 32768 -> exists o, script (tgs_impl sz ai av) 0 tgilist_init ss = Ret o /\ (o = None <-> r = None)) /\
  (zlen (stored ss) <= 65536 -> exists o, script (tgu_impl sz ai av) 0 tgilist_init ss = Ret o /\ (o = None <-> r = None)).
Proof. intros Hi Hv Hs E. split; intros HL; [apply tgs_script|apply tgu_script]; auto; lia. Qed.

(** the programs as they are: which allocations they need to pass *)
Theorem c108_sblist_insert_test al : sblist_insert_test al = Ret true <-> Forall (fun k => al k <> None) [0; 4; 5; 6; 7; 8; 9; 10; 11]%nat.
Proof. exact (sb_insert_iff al). Qed.
Theorem c108_sblist_delete_test al : sblist_delete_test al = Ret true <-> al 0%nat <> None.
Proof. exact (sb_delete_iff al). Qed.
Theorem c108_tglist_delete_test al : tglist_delete_test al = Ret true <-> al 0%nat <> None /\ al 4%nat <> None /\ al 8%nat <> None.
Proof. exact (tg_delete_iff al). Qed.
Theorem c108_hashlist_test newok al : hashlist_test newok al = Ret true <-> newok 0%nat = true /\ al 0%nat <> None /\ newok 2%nat = true /\ al 2%nat <> None.
Proof. exact (hashlist_iff newok al). Qed.
(** with memory tglist_insert_test passes for every libc and for any other number of rounds of its loop *)
Theorem c108_tglist_insert_test mag qs al al2 dup N : (forall a b, 0 < mag a b) -> (forall xs, Permutation (qs xs) xs /\ tsorted (mystrstrcmp mag) (qs xs)) ->
  (forall k, al k <> None) -> (forall k, al2 k <> None) -> (forall n, dup n = true) -> 16001 <= Z.of_nat N < 2 ^ 31 ->
  tglist_insert_test mag qs al al2 dup N = Ret true.
Proof.
  intros Hm Hq Ha Ha2 Hd HN. unfold tglist_insert_test.
  assert (R0 : forall n, 0 <= n <= 10 -> Rtg 4 n (@tglist_init Z) []) by (intros n Hn; split; [apply init_trep|]; change (zlen (@nil Z)) with 0; lia).
  destruct (tg_script al 4 Ha ltac:(lia) steps1 0 0%nat tglist_init [] (Some [0; 1; 3; 2]) ltac:(lia) (R0 4 ltac:(lia)) ltac:(vm_compute; reflexivity)) as (l1 & -> & _). cbn [bind].
  destruct (tg_loop_ok al (0 + length (stored steps1)) N Ha ltac:(lia) ltac:(lia)) as (k' & ->). cbn [bind].
  assert (E3 : scripts (tg_impl 4 al) k' [(tglist_init, steps3)] = Ret true).
  { apply scripts_one. destruct (tg_script al 4 Ha ltac:(lia) steps3 0 k' tglist_init [] (Some [3; 2; 1; 0]) ltac:(lia) (R0 4 ltac:(lia)) ltac:(vm_compute; reflexivity)) as (l3 & E & _). eauto. }
  rewrite E3. cbn [bind]. apply strtest_ok; assumption.
Qed.
(** so do the parts of tgilist_insert_test around the loop *)
Theorem c108_tgilist_insert_test ai av av2 : (forall k, ai k <> None) -> (forall k, av k <> None) -> (forall k, av2 k <> None) -> tgi_int_tests ai av = Ret true /\ tgi_strtest ai av2 = Ret true.
Proof.
  intros Hi Hv Hv2. split.
  - unfold tgi_int_tests. cbn [scripts].
    destruct (tgs_script ai av 4 0%nat steps1 (Some [0; 1; 3; 2]) Hi Hv ltac:(lia) ltac:(vm_compute; discriminate) ltac:(lia) ltac:(vm_compute; reflexivity)) as ([[k1 l1]|] & -> & H1); [|destruct H1 as [H1 _]; specialize (H1 eq_refl); discriminate]. cbn [bind].
    destruct (tgs_script ai av 4 k1 steps3 (Some [3; 2; 1; 0]) Hi Hv ltac:(lia) ltac:(vm_compute; discriminate) ltac:(lia) ltac:(vm_compute; reflexivity)) as ([[k2 l2]|] & -> & H2); [|destruct H2 as [H2 _]; specialize (H2 eq_refl); discriminate]. reflexivity.
  - unfold tgi_strtest. apply scripts_one. match goal with |- exists _ _, script _ _ _ ?s = _ => set (ss := s) end.
    assert (SH : should [] ss = Some (Some (map Some (nth 0 org [] :: skipn 2 org)))) by (vm_compute; reflexivity).
    destruct (tgu_script ai av2 8 0%nat ss _ Hi Hv2 ltac:(lia) ltac:(vm_compute; discriminate) ltac:(lia) SH) as ([[k2 l2]|] & -> & H2); [|destruct H2 as [H2 _]; specialize (H2 eq_refl); discriminate]. eauto.
Qed.

Print Assumptions c108_any_sblist_test.
Print Assumptions c108_any_tglist_test.
Print Assumptions c108_any_tgilist_test.
Print Assumptions c108_sblist_insert_test.
Print Assumptions c108_sblist_delete_test.
Print Assumptions c108_tglist_delete_test.
Print Assumptions c108_hashlist_test.
Print Assumptions c108_tglist_insert_test.
Print Assumptions c108_tgilist_insert_test.

(** a wrong assertion is found; without memory for the second block the last test fails *)
Example c108_ex :
  should [] [TAdd 1; TIns 2 0; TGet 0 2; TDel 1; TSize 1] = Some (Some [2]) /\ should [] [TAdd 1; TIns 2 0; TGet 0 1] = Some None /\
  script (tg_impl 4 (fun _ => Some (fun _ => 77))) 0 tglist_init [TAdd 1; TIns 2 0; TGet 0 1] = Ret None /\
  script (tg_impl 4 (fun _ => Some (fun _ => 77))) 0 tglist_init [TAdd 1; TIns 2 0; TGet 0 2; TSize 2] = Ret (Some (2%nat, mkTg 2 4 [2; 1; 77; 77])) /\
  tglist_delete_test (fun k => if Nat.eqb k 4 then None else Some (fun _ => 77)) = Ret false /\
  sblist_insert_test (fun _ => Some (fun _ => 170)) = Ret true.
Proof. vm_compute. repeat split. Qed.
