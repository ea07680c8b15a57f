(** C96: the replacements of include/stdio-repl.h. *)
From Verif Require Import Base Cstr M_stringptr D_stringptr P_stringptr M_format M_fmtuse T_fmtuse M_log T_log M_stdio S_stdio.

(** C96: fprintf to stdout or stderr, as long as the compiler gives equal string literals one address: the text, up
    to 4095 bytes of it, goes to that descriptor (n: the length of the text, which c74_fprintf and C55 describe) *)
Theorem c96_fprintf_partial same f fd fmt args dest cbuf n : literals_merged same -> (f, fd) = (out_name, 1) \/ (f, fd) = (err_name, 2) ->
  zlen dest = 4096 -> 0 <= n -> ulz_vsnprintf None 0 fmt args cbuf = Ret (n, None) ->
  exists t evs, zlen t = n /\ repl_fprintf same f fmt args dest cbuf = Ret evs /\ sends fd evs (ztake 4095 t) /\
    forall d size, n < size <= zlen d -> ulz_vsnprintf (Some d) size fmt args cbuf = Ret (n, Some (t ++ 0 :: zdrop (n + 1) d)).
Proof.
  intros S F D N R. change out_name with n_stdout in F. change err_name with n_stderr in F. assert (E : repl_fd same f = fd). { unfold repl_fd. destruct F as [F|F]; injection F as -> ->; [now rewrite (proj2 (S _ _) eq_refl)|]. destruct (same n_stderr n_stdout) eqn:Q; [apply S in Q; discriminate Q|]. now rewrite (proj2 (S _ _) eq_refl). }
  destruct (c74_fprintf (repl_fd same f) fmt args dest cbuf n D N R) as (t & L & P & G). exists t. unfold repl_fprintf. rewrite P, E. cbn [bind].
  destruct (Z.eqb_spec n 0) as [->|].
  - exists []. split; [exact L|]. split; [reflexivity|]. split; [|exact G]. apply zlen_0 in L. subst t. split; [constructor|reflexivity].
  - replace (fd <? 0) with false by (destruct F as [F|F]; injection F as _ ->; reflexivity). eexists. split; [exact L|]. split; [reflexivity|]. split; [|exact G]. split; [constructor; [reflexivity|constructor]|]. cbn. apply app_nil_r.
Qed.
Print Assumptions c96_fprintf_partial.
(** C96: where it does not, as C allows, nothing is written at all; nor is it for any other name of a stream *)
Theorem c96_fprintf_refuted : (exists same, literals_ok same /\
    forall f fmt args dest cbuf n, zlen dest = 4096 -> 0 <= n -> ulz_vsnprintf None 0 fmt args cbuf = Ret (n, None) -> repl_fprintf same f fmt args dest cbuf = Ret []) /\
  (forall same f fmt args dest cbuf n, literals_ok same -> f <> out_name -> f <> err_name ->
    zlen dest = 4096 -> 0 <= n -> ulz_vsnprintf None 0 fmt args cbuf = Ret (n, None) -> repl_fprintf same f fmt args dest cbuf = Ret []).
Proof.
  assert (X : forall same f fmt args dest cbuf n, same f n_stdout = false -> same f n_stderr = false -> zlen dest = 4096 -> 0 <= n -> ulz_vsnprintf None 0 fmt args cbuf = Ret (n, None) -> repl_fprintf same f fmt args dest cbuf = Ret []).
  { intros same f fmt args dest cbuf n A B D N R. unfold repl_fprintf, repl_fd. rewrite A, B. destruct (c74_fprintf (-1) fmt args dest cbuf n D N R) as (t & _ & -> & _). cbn [bind]. destruct (n =? 0); reflexivity. }
  split.
  - exists (fun _ _ => false). split; [intros a b E; discriminate E|]. intros. eapply X; eauto.
  - change out_name with n_stdout. change err_name with n_stderr. intros same f fmt args dest cbuf n S A B. apply X; [destruct (same f n_stdout) eqn:E|destruct (same f n_stderr) eqn:E]; try reflexivity; apply S in E; contradiction.
Qed.
Print Assumptions c96_fprintf_refuted.
(** C96: perror of a text that is not empty *)
Theorem c96_perror_partial t r m r' : nz t -> t <> [] -> nz m ->
  exists evs, repl_perror (Some (t ++ 0 :: r)) (Some (m ++ 0 :: r')) = Ret evs /\ sends 2 evs (perror_text (Some t) m).
Proof. intros T Ne M. destruct (c72_log_puterror 2 t r m r' T M) as (evs & E & S). exists evs. split; [exact E|]. destruct t as [|c t]; [congruence|]. unfold perror_text. rewrite <- app_assoc. exact S. Qed.
Print Assumptions c96_perror_partial.
(** C96: for NULL and for the empty string a colon and a space are written that do not belong there *)
Theorem c96_perror_empty_refuted s m r' : (s = None \/ exists r, s = Some (0 :: r)) -> nz m ->
  exists evs, repl_perror s (Some (m ++ 0 :: r')) = Ret evs /\ sends 2 evs ([58; 32] ++ m ++ [10]) /\ ~ sends 2 evs (perror_text None m).
Proof.
  intros H M. assert (E : exists evs, repl_perror s (Some (m ++ 0 :: r')) = Ret evs /\ sends 2 evs ([58; 32] ++ m ++ [10])).
  { destruct H as [->|(r & ->)]; [exact (c72_log_puterror 2 [] [] m r' ltac:(constructor) M)|exact (c72_log_puterror 2 [] r m r' ltac:(constructor) M)]. }
  destruct E as (evs & E & S). exists evs. split; [exact E|]. split; [exact S|]. intros [_ Q]. destruct S as [_ S]. unfold perror_text in Q. rewrite S in Q. apply (f_equal (@zlen Z)) in Q. revert Q. zl. lia.
Qed.
Print Assumptions c96_perror_empty_refuted.
(** C96: puts writes the text only: no new-line, whatever the text *)
Theorem c96_puts_refuted t r : nz t -> exists evs, repl_puts (t ++ 0 :: r) = Ret evs /\ sends 1 evs t /\ ~ sends 1 evs (puts_text t).
Proof.
  intros T. destruct (c72_log_putc 1 t r T) as (evs & E & S). exists evs. split; [exact E|]. split; [exact S|]. intros [_ Q]. destruct S as [_ S]. rewrite S in Q. apply (f_equal (@zlen Z)) in Q. unfold puts_text in Q. revert Q. zl. lia.
Qed.
Print Assumptions c96_puts_refuted.
Fixpoint lit_eqb (a b : list Z) : bool := match a, b with [], [] => true | x :: a, y :: b => (x =? y) && lit_eqb a b | _, _ => false end.
Example c96_merged : literals_merged lit_eqb.
Proof.
  intros a. induction a as [|x a IH]; intros [|y b]; cbn; try (split; (reflexivity || discriminate)). rewrite andb_true_iff, IH, Z.eqb_eq. split; [intros [-> ->]; reflexivity|intros E; injection E; auto].
Qed.
(** fprintf(stderr, "%d", -5); puts("hi"); perror("a") with message "no" *)
Example c96_ex : repl_fprintf lit_eqb err_name [37; 100; 0] [VInt (-5)] (zrepeat 7 4096) (zrepeat 0 32) = Ret [(2, [45; 53])] /\
  repl_fprintf lit_eqb [102] [37; 100; 0] [VInt (-5)] (zrepeat 7 4096) (zrepeat 0 32) = Ret [] /\
  repl_puts [104; 105; 0] = Ret [(1, [104; 105])] /\ repl_perror (Some [97; 0]) (Some [110; 111; 0]) = Ret [(2, [97]); (2, [58; 32]); (2, [110; 111]); (2, [10])].
Proof. repeat split; vm_compute; reflexivity. Qed.
