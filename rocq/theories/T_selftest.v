(** Property C118: the test programs inside the sources. *)
From Verif Require Import Base Bits Cstr M_num M_hex M_mktemp M_proc M_filelib S_filelib P_filelib P_strtest T_mktemp M_selftest P_selftest.

(** itoa.c: "-1337", "0", "100000", "-5653452", whatever the array held *)
Theorem c118_itoa : forall buf, zlen buf = 128 ->
  itoa_main buf = Ret (0, [45; 49; 51; 51; 55; 10; 48; 10; 49; 48; 48; 48; 48; 48; 10; 45; 53; 54; 53; 51; 52; 53; 50; 10]).
Proof. exact itoa_main_ok. Qed.
Print Assumptions c118_itoa.
(** utoa.c: "0", "100000", "5653452" *)
Theorem c118_utoa : forall buf, zlen buf = 128 -> utoa_main buf = Ret (0, [48; 10; 49; 48; 48; 48; 48; 48; 10; 53; 54; 53; 51; 52; 53; 50; 10]).
Proof. exact utoa_main_ok. Qed.
Print Assumptions c118_utoa.
(** hex2raw.c: all assertions hold *)
Theorem c118_hex2raw : forall buf, zlen buf = 16 -> hex_main buf = Ret (repeat true 6).
Proof. exact hex_main_ok. Qed.
Print Assumptions c118_hex2raw.
(** mktempdir.c: 30 bytes are just enough; exit code 0 and the directory's name if one was made in
    /dev/shm after k existing names *)
Theorem c118_mktempdir : forall rand k evs,
  exists ys y, length ys = k /\ Forall six ys /\ six y /\ let path x := removelast dev_shm ++ removelast prefix ++ x in
    mktempdir_main rand (attempt k MkOk ++ evs) = Ret (0, (path y, 29), map path (ys ++ [y])).
Proof. exact mk_shm. Qed.
Print Assumptions c118_mktempdir.
(** in /tmp, or exit code 1 if that fails too *)
Theorem c118_mktempdir_tmp : forall rand k k' e evs, e <> MkExist ->
  exists xs ys y, length xs = S k /\ Forall six xs /\ length ys = k' /\ Forall six ys /\ six y /\ let path x := removelast tmp ++ removelast prefix ++ x in
    mktempdir_main rand (attempt k MkFail ++ attempt k' e ++ evs) =
      Ret (match e with MkOk => 0 | _ => 1 end, (path y, match e with MkOk => 25 | _ => 0 end), map (fun x => removelast dev_shm ++ removelast prefix ++ x) xs ++ map path (ys ++ [y])).
Proof. exact mk_tmp. Qed.
Print Assumptions c118_mktempdir_tmp.
(** process.c: the answer is not terminated; the test passes if the next byte of the array was 0 *)
Theorem c118_process_partial : forall fails lim k t t1 fds ch status, process_open fails lim k t = Ret (Opened t1 fds ch) ->
  forall u q, zlen u = 5 -> process_main fails lim k t (u ++ 0 :: q) (Some answer) (Some status) = Ret (Exit 0 (answer ++ [10]), fold_left close fds t1).
Proof. exact process_pass. Qed.
Print Assumptions c118_process_partial.
(** and otherwise the assertion fails on the right answer, or puts leaves the array *)
Theorem c118_process_refuted : forall fails lim k t t1 fds ch status, process_open fails lim k t = Ret (Opened t1 fds ch) ->
  forall u, zlen u = 5 ->
  (forall s q, nz s -> s <> [] -> process_main fails lim k t (u ++ s ++ 0 :: q) (Some answer) (Some status) = Ret (Abort ((answer ++ s) ++ [10]), t1)) /\
  (forall s, nz s -> process_main fails lim k t (u ++ s) (Some answer) (Some status) = UB).
Proof. intros fails lim k t t1 fds ch status O u L. split; intros; [eapply process_junk|eapply process_over]; eauto. Qed.
Print Assumptions c118_process_refuted.
(** normalizepath_cstr.c: for every file the function stays inside the line, which ends with its page,
    and inside the 64 bytes of the output *)
Theorem c118_fuzz_in_bounds : forall c fuel buf wb b1 adj, bytes c -> zlen buf = 64 -> zlen wb = 64 -> (64 < fuel)%nat ->
  exists r, fuzz_main fuel buf wb [b1] (Some c) adj = Ret r.
Proof.
  intros c fuel buf wb b1 adj B L1 L2 F. destruct (to_nul (line 63 c)) as (s & r & E & N). destruct (line_cases 63 c) as (a & b & El & _ & _ & LL & rest & Ec).
  assert (Bs : bytes s). { assert (X : bytes (line 63 c ++ [0])). { apply bytes_app. split; [|apply bytes_cons; split; [unfold byte; lia|constructor]]. rewrite Ec in B. apply bytes_app in B as [B _]. rewrite El. exact B. } rewrite E in X. apply bytes_app in X as [X _]. exact X. }
  destruct adj.
  - rewrite (fuzz_ok c s r fuel buf wb b1 E N Bs L1 L2 F). destruct s; eauto.
  - unfold fuzz_main, fgets. change (Z.to_nat (64 - 1)) with 63%nat. destruct (line 63 c) as [|y l]; [cbn; eauto|].
    set (w := (y :: l) ++ [0]) in *. assert (Lw : zlen w <= 64). { rewrite <- El in LL. unfold w, zlen. rewrite app_length. cbn [length] in LL |- *. lia. }
    destruct (zsplit (zlen w) buf) as (u & v & -> & Lu); [zpos; lia|]. change (u ++ v) with ([] ++ u ++ v). rewrite zwrites_at by (reflexivity || lia). cbn [bind app].
    rewrite E, <- app_assoc. cbn [app]. rewrite strlen_0 by exact N. cbn [bind]. destruct (zlen s =? 0) eqn:Z0; [eauto|].
    destruct s as [|z0 s0]; [cbn in Z0; discriminate|]. destruct (@exists_last _ (z0 :: s0)) as (t & x & Et); [discriminate|]. rewrite Et. rewrite <- app_assoc. cbn [app]. rewrite zwrite_at by (zl; lia). cbn [bind negb]. eauto.
Qed.
Print Assumptions c118_fuzz_in_bounds.
(** a line of at most 62 bytes: shown with its normal form, or nothing *)
Theorem c118_fuzz_line : forall l rest fuel buf wb b1, nz l -> bytes l -> ~ In 10 l -> zlen l <= 62 -> zlen buf = 64 -> zlen wb = 64 -> (64 < fuel)%nat ->
  fuzz_main fuel buf wb [b1] (Some (l ++ 10 :: rest)) true = Ret (0, match normal l with None => [] | Some p => l ++ [32; 45; 62; 32] ++ p ++ [10] end).
Proof.
  intros l rest fuel buf wb b1 N B NL Ll L1 L2 F.
  assert (E : forall n l, ~ In 10 l -> (length l < n)%nat -> line n (l ++ 10 :: rest) = l ++ [10]).
  { clear. induction n as [|n IH]; intros l NL L; [lia|]. destruct l as [|x l]; [reflexivity|]. cbn [app line]. replace (x =? 10) with false by (cbn in NL; lia). rewrite IH; [reflexivity|cbn in NL; tauto|cbn in L; lia]. }
  rewrite (fuzz_ok _ (l ++ [10]) [] fuel buf wb b1); auto.
  - rewrite removelast_last. destruct l; reflexivity.
  - rewrite E by (auto; unfold zlen in Ll; lia). rewrite <- app_assoc. reflexivity.
  - apply nz_app. split; [exact N|constructor; [lia|constructor]].
  - apply bytes_app. split; [exact B|apply bytes_cons; split; [unfold byte; lia|constructor]].
Qed.
Print Assumptions c118_fuzz_line.
(** a file without newline loses its last byte *)
Theorem c118_fuzz_no_newline_refuted : forall l x fuel buf wb b1, nz (l ++ [x]) -> bytes (l ++ [x]) -> ~ In 10 (l ++ [x]) -> zlen l <= 62 -> zlen buf = 64 -> zlen wb = 64 -> (64 < fuel)%nat ->
  fuzz_main fuel buf wb [b1] (Some (l ++ [x])) true = Ret (0, match normal l with None => [] | Some p => l ++ [32; 45; 62; 32] ++ p ++ [10] end).
Proof.
  intros l x fuel buf wb b1 N B NL Ll L1 L2 F.
  assert (E : forall n l, ~ In 10 l -> (length l <= n)%nat -> line n l = l).
  { clear. induction n as [|n IH]; intros l NL L; destruct l as [|x l]; try reflexivity; [cbn in L; lia|]. cbn [line]. replace (x =? 10) with false by (cbn in NL; lia). rewrite IH; [reflexivity|cbn in NL; tauto|cbn in L; lia]. }
  rewrite (fuzz_ok _ (l ++ [x]) [] fuel buf wb b1); auto.
  - rewrite removelast_last. destruct l; reflexivity.
  - rewrite E; [reflexivity|exact NL|]. rewrite app_length. cbn [length]. unfold zlen in Ll. lia.
Qed.
Print Assumptions c118_fuzz_no_newline_refuted.
(** called with X and a path of less than 64 bytes *)
Theorem c118_fuzz_arg_partial : forall t post fuel buf wb, nz t -> bytes t -> zlen t < 64 -> zlen buf = 64 -> (64 < fuel)%nat ->
  fuzz_main fuel buf wb [[88; 0]; t ++ 0 :: post] None true = Ret (0, match normal t with None => [] | Some p => t ++ [32; 45; 62; 32] ++ p ++ [10] end).
Proof.
  intros t post fuel buf wb N B L Lb F. unfold fuzz_main. change (zread [88; 0] 0) with (Ret 88). cbn [bind Z.eqb Pos.eqb]. change (zread [88; 0] 1) with (Ret 0). cbn [bind Z.eqb].
  destruct (zsplit (zlen t + 1) buf) as (o & g & -> & Lo); [zpos; lia|]. rewrite zlen_app in Lb.
  pose proof (normalizepath_cstr_ok fuel t post o g N B ltac:(lia) ltac:(lia) ltac:(unfold zlen in L; lia)) as H.
  destruct (normal t) as [p|] eqn:NT.
  - destruct H as (k & H & Lk). rewrite H. cbn [bind]. unfold shown. rewrite cstring_ok by exact N. cbn [bind]. pose proof (normal_nz t p N NT) as Np. rewrite cstring_ok by exact Np. reflexivity.
  - rewrite H. reflexivity.
Qed.
Print Assumptions c118_fuzz_arg_partial.
(** a longer path overflows the array *)
Theorem c118_fuzz_arg_refuted : fuzz_main 200 (zrepeat 7 64) (zrepeat 7 64) [[88; 0]; 47 :: zrepeat 97 64 ++ [0]] None true = UB.
Proof. vm_compute. reflexivity. Qed.
Print Assumptions c118_fuzz_arg_refuted.

Example c118_ex :
  fuzz_main 65 (zrepeat 7 64) (zrepeat 9 64) [[102; 0]] (Some [47; 97; 47; 46; 46; 10; 99]) true = Ret (0, [47; 97; 47; 46; 46; 32; 45; 62; 32; 47; 10]) /\
  fuzz_main 65 (zrepeat 7 64) (zrepeat 9 64) [[102; 0]] (Some []) true = Ret (1, []) /\
  (exists t1 fds ch, process_open (fun _ => false) 16 9 ([Some (Other 0); Some (Other 0); Some (Other 0); Some (Other 1)] ++ zrepeat None 12) = Ret (Opened t1 fds ch)) /\
  mktempdir_main (fun i => i) [MkFail; MkFail] = Ret (1, (removelast tmp ++ removelast prefix ++ [54; 55; 56; 57; 65; 66], 0),
    [removelast dev_shm ++ removelast prefix ++ [48; 49; 50; 51; 52; 53]; removelast tmp ++ removelast prefix ++ [54; 55; 56; 57; 65; 66]]).
Proof. split; [vm_compute; reflexivity|]. split; [vm_compute; reflexivity|]. split; [|vm_compute; reflexivity]. eexists; eexists; eexists. vm_compute. reflexivity. Qed.
