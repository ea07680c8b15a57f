(** C118: the fuzz target with X and a path whose beginning does not fit into its array. *)
From Verif Require Import Base Bits Cstr M_filelib M_selftest.

Lemma copy_over pb dn c g : zread pb (zlen dn) = Ret c -> np_copy pb 0 (zlen dn) (dn ++ g) (zlen dn) = match g with [] => UB | _ :: g => Ret (Next (zlen dn) (dn ++ c :: g) (zlen dn + 1)) end.
Proof.
  intros R. unfold np_copy. rewrite Z.add_0_l, R. cbn [bind]. destruct g as [|x g].
  - unfold zwrite. rewrite app_nil_r. zpos. replace (_ && _) with false by lia. reflexivity.
  - rewrite zwrite_at by reflexivity. reflexivity.
Qed.
Lemma loop_over rest : forall rem dn g fuel, zlen (dn ++ rem) = 65 -> zlen (dn ++ g) = 64 -> nz rem -> ~ In 46 rem -> last (dn ++ rem) 0 <> 47 -> (forall u v, dn ++ rem <> u ++ 47 :: 47 :: v) -> (length rem < fuel)%nat ->
  np_loop fuel true (dn ++ rem ++ rest) 0 0 (zlen dn) (dn ++ g) (zlen dn) = UB.
Proof.
  induction rem as [|c rem IH]; intros dn g fuel L1 L2 N D La A F; rewrite zlen_app in L1, L2. { change (zlen (@nil Z)) with 0 in L1. zpos. lia. }
  destruct fuel as [|fuel]; [cbn in F; lia|]. cbn [np_loop]. rewrite Z.add_0_l. cbn [app]. rewrite (zread_at dn c (rem ++ rest)) by reflexivity. cbn [bind]. inversion N as [|? ? Nc Nr]; subst.
  replace (c =? 0) with false by lia. cbn [negb].
  assert (St : np_step (S fuel) true (dn ++ c :: rem ++ rest) 0 (zlen dn) (dn ++ g) (zlen dn) = np_copy (dn ++ c :: rem ++ rest) 0 (zlen dn) (dn ++ g) (zlen dn)).
  { unfold np_step. rewrite Z.add_0_l, (zread_at dn c (rem ++ rest)) by reflexivity. cbn [bind]. destruct (Z.eqb_spec c 47) as [->|C].
    - destruct rem as [|e rem]. { elim La. now rewrite last_last. }
      cbn [skip_slashes]. rewrite Z.add_0_l. change ((e :: rem) ++ rest) with (e :: rem ++ rest). assert (R2 : zread (dn ++ 47 :: e :: rem ++ rest) (zlen dn + 1) = Ret e). { change (dn ++ 47 :: e :: rem ++ rest) with (dn ++ [47] ++ e :: rem ++ rest). rewrite app_assoc. apply zread_at. now rewrite zlen_app. } rewrite R2. cbn [bind].
      replace (e =? 47) with false. 2:{ symmetry. apply Z.eqb_neq. intros ->. now elim (A dn rem). } cbn [bind].
      destruct (Z.eqb_spec (zlen dn) 0) as [Z0|Z0]; [reflexivity|]. destruct (@exists_last _ dn) as (d0 & y & ->); [intros ->; now elim Z0|].
      rewrite <- (app_assoc d0 [y] g). cbn [app]. rewrite (zread_at d0 y g) by (rewrite ?zlen_app; change (zlen [y]) with 1; (reflexivity || lia)). cbn [bind].
      replace (y =? 47) with false; [reflexivity|]. symmetry. apply Z.eqb_neq. intros ->. elim (A d0 (e :: rem)). now rewrite <- app_assoc.
    - replace (c =? 46) with false; [reflexivity|]. symmetry. apply Z.eqb_neq. intros ->. apply D. now left. }
  rewrite St, (copy_over _ dn c) by (now apply zread_at). destruct g as [|x g]; [reflexivity|]. cbn [bind].
  specialize (IH (dn ++ [c]) g fuel). rewrite <- !app_assoc in IH. cbn [app] in IH. replace (zlen (dn ++ [c])) with (zlen dn + 1) in IH by (now rewrite zlen_app). apply IH; auto.
  - rewrite zlen_app. exact L1.
  - rewrite zlen_app. rewrite !zlen_cons in *. lia.
  - intros I. apply D. now right.
  - cbn in F. lia.
Qed.
(** the first 65 bytes without a dot, a double slash or a slash at their end are too much, whatever follows: also if the normal form is short *)
Theorem c118_fuzz_arg_overflow : forall p rest fuel buf wb file adj, zlen p = 65 -> nz p -> ~ In 46 p -> hd 0 p = 47 -> last p 0 <> 47 -> (forall u v, p <> u ++ 47 :: 47 :: v) ->
  zlen buf = 64 -> (65 < fuel)%nat -> fuzz_main fuel buf wb [[88; 0]; p ++ rest] file adj = UB.
Proof.
  intros p rest fuel buf wb file adj L N D H La A Lb F. unfold fuzz_main. change (zread [88; 0] 0) with (Ret 88). cbn [bind Z.eqb Pos.eqb]. change (zread [88; 0] 1) with (Ret 0). cbn [bind Z.eqb].
  unfold normalizepath_cstr. destruct p as [|c p]; [discriminate|]. cbn [hd] in H. subst c. change (zread ((47 :: p) ++ rest) 0) with (Ret 47 : out Z). cbn [bind Z.eqb Pos.eqb negb].
  pose proof (loop_over rest (47 :: p) [] buf fuel L Lb N D La A ltac:(unfold zlen in L; lia)) as X. change (zlen (@nil Z)) with 0 in X. cbn [app] in X |- *. rewrite X. reflexivity.
Qed.
Print Assumptions c118_fuzz_arg_overflow.
(* "/aaa...a/.." has the normal form "/" *)
Example c118_fuzz_over_ex : fuzz_main 200 (zrepeat 7 64) [] [[88; 0]; (47 :: zrepeat 97 64) ++ [47; 46; 46; 0]] None true = UB.
Proof. vm_compute. reflexivity. Qed.
