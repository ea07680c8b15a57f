(** C51: fileparser_readline when lseek fails.  C118: the self test of process.c when the program cannot be started. *)
From Verif Require Import Base M_fileparser P_fileparser M_proc P_proc T_proc M_selftest P_selftest.

(** fileparser_readline reads at most 1024 bytes; a failing lseek is its result exactly if the end of these bytes is not
    where the next line begins *)
Theorem c51_readline_seek_error : forall e p buf r p' buf', readline None None p buf = Ret (r, p', buf') ->
  let data := ztake 1024 (zdrop (foff p) (fcont p)) in
  (ffd p <> 0 /\ data <> [] /\ (In 10 data \/ zlen data = 1024) ->
     readline None (Some e) p buf = Ret (e, mkFp (fpos p') (flen p') (ffd p') (fcont p') (foff p + zlen data), buf')) /\
  (ffd p = 0 \/ data = [] \/ (~ In 10 data /\ zlen data <> 1024) -> readline None (Some e) p buf = Ret (r, p', buf')).
Proof. intros e p buf r p' buf' E. apply (readline_seek_error e p buf 1024 r p' buf'); [lia|exact E]. Qed.
Print Assumptions c51_readline_seek_error.
Example c51_readline_seek_error_ex :
  readline None (Some (-5)) (mkFp 0 0 3 [97; 10; 98; 99] 0) (zrepeat 7 1024) = Ret (-5, mkFp 2 1 3 [97; 10; 98; 99] 4, [97; 0; 98; 99] ++ zrepeat 7 1020).
Proof. vm_compute. reflexivity. Qed.

(** the program cannot be started: exit code 1 without output and with all descriptors as before, whatever the array
    holds and read would give *)
Theorem c118_process_not_started : forall fails lim k t, std_open t -> fails SInit = false ->
  process_open fails lim k t = Ret (M_proc.Failed t) /\ (forall buf got status, process_main fails lim k t buf got status = Ret (Exit 1 [], t)) \/
  exists a b c t' child, process_open fails lim k t = Ret (Opened t' [a; b; c] child).
Proof.
  intros fails lim k t HS HI. destruct (c66_open fails lim k t HS HI) as [E|(a & b & c & t' & child & E & _)]; [left|right; eauto 6].
  split; [exact E|]. intros buf got status. unfold process_main. now rewrite E.
Qed.
Print Assumptions c118_process_not_started.
Example c118_process_not_started_ex : let t := [Some (Other 0); Some (Other 0); Some (Other 0); Some (Other 1)] ++ zrepeat None 12 in
  process_main (fun s => match s with SPipe 2 => true | _ => false end) 16 9 t [1; 2; 3] None None = Ret (Exit 1 [], t).
Proof. vm_compute. reflexivity. Qed.
