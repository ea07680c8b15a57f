(** C93 for every file: what examples/fileparser_test.c prints. *)
From Verif Require Import Base Cstr M_proc P_proc M_fileparser S_fileparser D_fileparser P_fileparser M_fpuse S_fpuse T_fpuse.

(** the lines before the first one of 1024 bytes or more *)
Fixpoint shorts (ls : list (list Z)) : list (list Z) :=
  match ls with
  | [] => []
  | l :: ls => if zlen l <? 1024 then l :: shorts ls else []
  end.
Lemma print_long l r fuel p b : at_rest p (l ++ r) -> no_lf l -> 1024 <= zlen l -> zlen b = 1024 -> exists p', print_loop (S fuel) None p b = Ret ([], p') /\ ffd p' = ffd p.
Proof.
  intros R N L Lb. destruct (zsplit 1024 l ltac:(lia)) as (c & d & -> & Lc). rewrite <- app_assoc in R. assert (Nc : no_lf c) by (intros I; apply N, in_or_app; now left).
  cbn [print_loop]. unfold readline. pose proof (readline_long p c (d ++ r) b [] 1024 R Nc Lc Lb ltac:(lia)) as E. rewrite !app_nil_r in E. rewrite E. eexists. split; reflexivity.
Qed.
Lemma print_exact ls : forall fuel p r b, at_rest p r -> file_lines r ls -> zlen b = 1024 -> (length ls < fuel)%nat ->
  exists p', print_loop fuel None p b = Ret (printed (shorts ls), p') /\ ffd p' = ffd p.
Proof.
  intros fuel p r b R FL. revert fuel p b R. induction FL as [|l Hl Nl|l r ls Nl FL IH]; intros fuel p b R Lb Lf.
  - apply (print_all [] fuel p [] b); auto; constructor.
  - cbn [shorts]. destruct (zlen l <? 1024) eqn:E.
    + apply (print_all [l] fuel p l b); auto; [now constructor|constructor; [lia|constructor]].
    + destruct fuel as [|fuel]; [cbn in Lf; lia|]. apply (print_long l []); auto; [now rewrite app_nil_r|lia].
  - destruct fuel as [|fuel]; [cbn in Lf; lia|]. cbn [shorts]. destruct (zlen l <? 1024) eqn:E.
    + apply Z.ltb_lt in E. destruct (readline_lf0 p l r b R Nl Lb E) as (p1 & b1 & ER & L1 & T & R1 & F1). rewrite (print_line fuel None p l b p1 b1 ER L1 E T). destruct (IH fuel p1 b1 R1 L1 ltac:(cbn in Lf; lia)) as (p2 & -> & F2). cbn [bind]. exists p2. split; [cbn [printed flat_map]; unfold printed; now rewrite <- app_assoc|congruence].
    + apply (print_long l (10 :: r)); auto; lia.
Qed.
(** C93: with descriptor 0 in use, whatever the file holds: the lines before the first one of 1024 bytes *)
Theorem c93_exact : forall fuel content ls e lim t junk buf, is_open t 0 <> None -> newfd lim t (Other 0) <> None ->
  zlen content < 2 ^ 63 -> file_lines content ls -> zlen buf = 1024 -> (length ls < fuel)%nat ->
  fp_main fuel (Some content) e lim t junk buf = Ret (printed (shorts ls), t).
Proof.
  intros fuel content ls e lim t junk buf H0 Hn Lc FL Lb Lf. destruct (newfd lim t (Other 0)) as [[fd t']|] eqn:E; [|contradiction]. pose proof (not0 _ _ _ _ _ E H0) as P. eapply main_with; [exact E|exact P|]. apply (print_exact ls fuel (mkFp 0 (flen junk) fd content 0) content buf (rest0 content fd (flen junk) ltac:(lia) Lc) FL Lb Lf).
Qed.
Print Assumptions c93_exact.
(** C93: the whole file is printed iff each line is shorter than that *)
Theorem c93_complete_iff : forall fuel content ls e lim t junk buf, is_open t 0 <> None -> newfd lim t (Other 0) <> None ->
  zlen content < 2 ^ 63 -> file_lines content ls -> zlen buf = 1024 -> (length ls < fuel)%nat ->
  (fp_main fuel (Some content) e lim t junk buf = Ret (printed ls, t) <-> Forall (fun l => zlen l < 1024) ls).
Proof.
  intros fuel content ls e lim t junk buf H0 Hn Lc FL Lb Lf. rewrite (c93_exact fuel content ls) by assumption. split.
  - intros E. injection E as E. clear - E. induction ls as [|l ls IH]; [constructor|]. cbn [shorts] in E. destruct (zlen l <? 1024) eqn:L.
    + constructor; [lia|]. apply IH. unfold printed in E. cbn [flat_map] in E. now apply app_inv_head in E.
    + exfalso. unfold printed in E. cbn [flat_map] in E. destruct (before0 l); discriminate E.
  - intros F. assert (K : shorts ls = ls). { clear - F. induction F as [|l ls L F IH]; [reflexivity|]. cbn [shorts]. replace (zlen l <? 1024) with true by lia. now rewrite IH. } now rewrite K.
Qed.
Print Assumptions c93_complete_iff.
Example c93_exact_example : shorts [[97]; repeat 98 1024; [99]] = [[97]] /\ fp_main 9 (Some ([97; 10] ++ repeat 98 1024 ++ [10; 99; 10])) 2 4 [Some (Other 1); None] (mkFp 77 88 99 [] 0) (repeat 7 1024) = Ret ([97; 10], [Some (Other 1); None]).
Proof. split; vm_compute; reflexivity. Qed.
