(** C93: fileparser_open, fileparser_close and examples/fileparser_test.c. *)
From Verif Require Import Base Cstr M_proc P_proc M_fileparser S_fileparser D_fileparser P_fileparser M_fpuse S_fpuse.

Lemma shown l b : zlen l < zlen b -> ztake (zlen l + 1) b = l ++ [0] -> (let* n := strlen b 0 in zreads b 0 n) = Ret (before0 l).
Proof.
  intros L E. assert (Eb : b = l ++ 0 :: zdrop (zlen l + 1) b). { rewrite <- (ztake_zdrop (zlen l + 1) b) at 1. rewrite E, <- app_assoc. reflexivity. } rewrite Eb. generalize (zdrop (zlen l + 1) b). clear. intros r.
  assert (S : exists q, l ++ 0 :: r = before0 l ++ 0 :: q /\ nz (before0 l)).
  { induction l as [|c l (q & E & N)]; [exists r; split; [reflexivity|constructor]|]. cbn [before0 app]. destruct (Z.eqb_spec c 0) as [->|C]; [eexists; split; [reflexivity|constructor]|]. exists q. rewrite E. split; [reflexivity|now constructor]. }
  destruct S as (q & -> & N). rewrite strlen_0 by exact N. cbn [bind]. change (before0 l ++ 0 :: q) with ([] ++ before0 l ++ 0 :: q) at 1. now apply zreads_at.
Qed.
Lemma readline_lf0 p l r b : at_rest p (l ++ 10 :: r) -> no_lf l -> zlen b = 1024 -> zlen l < 1024 ->
  exists p' b', readline None None p b = Ret (0, p', b') /\ zlen b' = 1024 /\ ztake (zlen l + 1) b' = l ++ [0] /\ at_rest p' r /\ ffd p' = ffd p.
Proof. intros R N L Ll. destruct (readline_lf p l r b [] 1024 R N L Ll) as (p' & b' & E & Lb & _ & T & R' & _ & _ & _ & F). rewrite !app_nil_r in E. exists p', b'. auto. Qed.
Lemma print_line fuel rd p l b p' b' : readline rd None p b = Ret (0, p', b') -> zlen b' = 1024 -> zlen l < 1024 -> ztake (zlen l + 1) b' = l ++ [0] ->
  print_loop (S fuel) rd p b = let* (o, p) := print_loop fuel rd p' b' in Ret (before0 l ++ [10] ++ o, p).
Proof.
  intros E L Ll T. cbn [print_loop]. rewrite E. cbn [bind Z.eqb]. pose proof (shown l b' ltac:(lia) T) as S. destruct (strlen b' 0) as [n| |]; try discriminate S. cbn [bind] in S |- *. rewrite S. reflexivity.
Qed.
Lemma print_all ls : forall fuel p r b, at_rest p r -> file_lines r ls -> Forall (fun l => zlen l < 1024) ls -> zlen b = 1024 -> (length ls < fuel)%nat ->
  exists p', print_loop fuel None p b = Ret (printed ls, p') /\ ffd p' = ffd p.
Proof.
  intros fuel p r b R FL. revert fuel p b R. induction FL as [|l Hl Nl|l r ls Nl FL IH]; intros fuel p b R F Lb Lf; (destruct fuel as [|fuel]; [cbn in Lf; lia|]).
  - exists p. cbn [print_loop]. unfold readline. rewrite (readline_eof p b 1024 R) by lia. split; reflexivity.
  - inversion F as [|x y Ll _]; subst. destruct (readline_last p l b [] 1024 R Hl Nl Lb Ll) as (p1 & b1 & E & L1 & _ & T & R1 & _ & F1). rewrite !app_nil_r in E. rewrite (print_line fuel None p l b p1 b1 E L1 Ll T). destruct fuel as [|fuel]; [cbn in Lf; lia|]. cbn [print_loop]. unfold readline. rewrite (readline_eof p1 b1 1024 R1) by lia. exists p1. cbn [bind Z.eqb]. split; [unfold printed; cbn [flat_map]; now rewrite <- app_assoc|exact F1].
  - inversion F as [|x y Ll F']; subst. destruct (readline_lf0 p l r b R Nl Lb Ll) as (p1 & b1 & E & L1 & T & R1 & F1). rewrite (print_line fuel None p l b p1 b1 E L1 Ll T). destruct (IH fuel p1 b1 R1 F' L1 ltac:(cbn in Lf; lia)) as (p2 & -> & F2). cbn [bind]. exists p2. split; [cbn [printed flat_map]; unfold printed; now rewrite <- app_assoc|congruence].
Qed.
Lemma print_some ls : forall fuel p c r b, at_rest p (flat_map (fun l => l ++ [10]) ls ++ c ++ r) -> Forall no_lf ls -> Forall (fun l => zlen l < 1024) ls -> no_lf c -> zlen c = 1024 -> zlen b = 1024 -> (length ls < fuel)%nat ->
  exists p', print_loop fuel None p b = Ret (printed ls, p') /\ ffd p' = ffd p.
Proof.
  induction ls as [|l ls IH]; intros fuel p c r b R N F Nc Lc Lb Lf; (destruct fuel as [|fuel]; [cbn in Lf; lia|]).
  - cbn [print_loop]. unfold readline. pose proof (readline_long p c r b [] 1024 R Nc Lc Lb ltac:(lia)) as E. rewrite !app_nil_r in E. rewrite E. eexists. split; reflexivity.
  - inversion F as [|x y Ll F']; subst. inversion N as [|x y Nl N']; subst. cbn [flat_map] in R. rewrite <- !app_assoc in R. cbn [app] in R. destruct (readline_lf0 p l _ b R Nl Lb Ll) as (p1 & b1 & E & L1 & T & R1 & F1). rewrite (print_line fuel None p l b p1 b1 E L1 Ll T). destruct (IH fuel p1 c r b1 R1 N' F' Nc Lc L1 ltac:(cbn in Lf; lia)) as (p2 & -> & F2). cbn [bind]. exists p2. split; [cbn [printed flat_map]; unfold printed; now rewrite <- app_assoc|congruence].
Qed.
Lemma reopened lim t o fd t' : newfd lim t o = Some (fd, t') -> close t' fd = t.
Proof.
  intros E. apply newfd_ok in E as (R & _ & N & _ & ->). apply table_ext; [now rewrite close_len, set_len|]. intros i. rewrite open_close, open_set by exact R. destruct (Z.eqb_spec i fd) as [->|]; [now rewrite N|reflexivity].
Qed.
Lemma rest0 c fd junk : fd <> 0 -> zlen c < 2 ^ 63 -> at_rest (mkFp 0 junk fd c 0) c.
Proof. intros F L. split; [exact F|]. split; [exact L|]. split; [exists []; split; reflexivity|reflexivity]. Qed.
Lemma not0 lim t o fd t' : newfd lim t o = Some (fd, t') -> is_open t 0 <> None -> 0 < fd.
Proof. intros E H. apply newfd_ok in E as (R & _ & N & _ & _). destruct (Z.eq_dec fd 0) as [->|]; [contradiction|lia]. Qed.
Lemma main_with fuel c e lim t junk buf fd t' o : newfd lim t (Other 0) = Some (fd, t') -> 0 < fd ->
  (exists p', print_loop fuel None (mkFp 0 (flen junk) fd c 0) buf = Ret (o, p') /\ ffd p' = fd) -> fp_main fuel (Some c) e lim t junk buf = Ret (o, t).
Proof.
  intros E P (p' & EP & Fp). unfold fp_main, fp_open. rewrite E. cbn [ffd]. replace (fd <? 0) with false by lia. rewrite EP. cbn [bind fp_close]. unfold fp_close. rewrite Fp. replace (0 <? fd) with true by lia. rewrite (reopened _ _ _ _ _ E). reflexivity.
Qed.
(** C93: with descriptor 0 in use, the program prints every line of the file, up to its first NUL, with a line feed,
    also after the last line; and it leaves the descriptors as they were *)
Theorem c93_prints_file fuel content ls e lim t junk buf : is_open t 0 <> None -> newfd lim t (Other 0) <> None ->
  zlen content < 2 ^ 63 -> file_lines content ls -> Forall (fun l => zlen l < 1024) ls -> zlen buf = 1024 -> (length ls < fuel)%nat ->
  fp_main fuel (Some content) e lim t junk buf = Ret (printed ls, t).
Proof.
  intros H0 Hn Lc FL F Lb Lf. destruct (newfd lim t (Other 0)) as [[fd t']|] eqn:E; [|contradiction]. pose proof (not0 _ _ _ _ _ E H0) as P. eapply main_with; [exact E|exact P|]. destruct (print_all ls fuel (mkFp 0 (flen junk) fd content 0) content buf (rest0 content fd (flen junk) ltac:(lia) Lc) FL F Lb Lf) as (p' & EP & Fp). exists p'. split; [exact EP|exact Fp].
Qed.
Print Assumptions c93_prints_file.
(** C93: but it stops before a line of 1024 bytes or more, as if the file ended there *)
Theorem c93_long_line_refuted fuel ls c r e lim t junk buf : is_open t 0 <> None -> newfd lim t (Other 0) <> None ->
  zlen (flat_map (fun l => l ++ [10]) ls ++ c ++ r) < 2 ^ 63 -> Forall no_lf ls -> Forall (fun l => zlen l < 1024) ls -> no_lf c -> zlen c = 1024 -> zlen buf = 1024 -> (length ls < fuel)%nat ->
  fp_main fuel (Some (flat_map (fun l => l ++ [10]) ls ++ c ++ r)) e lim t junk buf = Ret (printed ls, t).
Proof.
  intros H0 Hn Lc N F Nc L1 Lb Lf. destruct (newfd lim t (Other 0)) as [[fd t']|] eqn:E; [|contradiction]. pose proof (not0 _ _ _ _ _ E H0) as P. eapply main_with; [exact E|exact P|]. apply (print_some ls fuel (mkFp 0 (flen junk) fd _ 0) c r buf); try assumption. apply rest0; [lia|exact Lc].
Qed.
Print Assumptions c93_long_line_refuted.
(** C93: if it cannot be opened, nothing is printed and no descriptor touched *)
Theorem c93_not_opened fuel file e lim t junk buf : file = None \/ newfd lim t (Other 0) = None -> fp_main (S fuel) file e lim t junk buf = Ret ([], t).
Proof. intros [->|E]; unfold fp_main, fp_open; [reflexivity|]. destruct file; [rewrite E|]; reflexivity. Qed.
Print Assumptions c93_not_opened.
(** C93: started with descriptor 0 closed, the program prints nothing of any file, and leaves the file open *)
Theorem c93_descriptor_zero_refuted fuel content e lim t junk buf : is_open t 0 = None -> 0 < zlen t -> 0 < lim ->
  fp_main (S fuel) (Some content) e lim t junk buf = Ret ([], set t 0 (Some (Other 0))) /\ is_open (set t 0 (Some (Other 0))) 0 = Some (Other 0).
Proof.
  intros H0 Lt Ll. destruct (newfd_some lim t (Other 0) 0 H0 ltac:(lia) Ll) as (fd & Lf & E). pose proof (newfd_ok _ _ _ _ _ E) as (R & _). assert (fd = 0) by lia. subst fd. split.
  - unfold fp_main, fp_open. rewrite E. reflexivity.
  - rewrite open_set by lia. reflexivity.
Qed.
Print Assumptions c93_descriptor_zero_refuted.
Example c93_ex : let t := [Some (Other 1); None; Some (Other 3); None] in let junk := mkFp 77 88 99 [] 0 in
  fp_main 9 (Some [97; 98; 10; 10; 99; 0; 100; 10; 101]) 2 4 t junk (repeat 7 1024) = Ret ([97; 98; 10; 10; 99; 10; 101; 10], t) /\
  fp_main 9 (Some ([97; 10] ++ repeat 98 1024 ++ [10; 99; 10])) 2 4 t junk (repeat 7 1024) = Ret ([97; 10], t) /\
  fp_main 9 (Some [97; 10]) 2 4 [None; None] junk (repeat 7 1024) = Ret ([], [Some (Other 0); None]).
Proof. split; [|split]; vm_compute; reflexivity. Qed.
