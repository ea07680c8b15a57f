(** Property C115: small helpers. *)
From Verif Require Import Base M_stringptr M_spfile S_stringptr D_stringptr S_fileparser P_fileparser T_fileparser M_small.

(** getFileModTime returns the time of the last modification of a file that exists *)
Theorem c115_modtime_partial : forall st, (forall m, st = Some m -> m <> 0) ->
  (getFileModTime st = 0 <-> st = None) /\ (forall m, st = Some m -> getFileModTime st = m).
Proof. intros [m|] H; cbn; split; try congruence; try tauto. split; [intros E; now specialize (H m eq_refl)|discriminate]. Qed.
Print Assumptions c115_modtime_partial.
(** but a missing file is not told from one last modified at the epoch *)
Theorem c115_modtime_refuted : exists m, getFileModTime (Some m) = getFileModTime None.
Proof. now exists 0. Qed.
Print Assumptions c115_modtime_refuted.

(** MIN and MAX of expressions without side effects are the minimum and the maximum *)
Theorem c115_min_max_partial : forall S (x y : expr S), (forall s, snd (x s) = s) -> (forall s, snd (y s) = s) ->
  forall s, MIN x y s = (Z.min (fst (x s)) (fst (y s)), s) /\ MAX x y s = (Z.max (fst (x s)) (fst (y s)), s).
Proof.
  intros S x y Hx Hy s. unfold MIN, MAX. specialize (Hx s). specialize (Hy s). destruct (x s) as [a sa] eqn:EX. cbn [fst snd] in *. subst sa.
  destruct (y s) as [b sb] eqn:EY. cbn [fst snd] in *. subst sb. split.
  - destruct (a <? b) eqn:L; [rewrite EX|rewrite EY]; f_equal; lia.
  - destruct (b <? a) eqn:L; [rewrite EX|rewrite EY]; f_equal; lia.
Qed.
Print Assumptions c115_min_max_partial.
(** with them the selected argument is evaluated twice: MIN(i++, n) and MAX(n, i++) *)
Theorem c115_min_max_refuted : forall i n,
  let inc : expr Z := fun s => (s, s + 1) in let k : expr Z := fun s => (n, s) in
  (i < n -> MIN inc k i = (i + 1, i + 2)) /\ (n < i -> MAX k inc i = (i + 1, i + 2)).
Proof. intros i n. cbv zeta. unfold MIN, MAX. split; intros H. - replace (i <? n) with true by lia. f_equal; lia. - replace (i <? n) with false by lia. f_equal; lia. Qed.
Print Assumptions c115_min_max_refuted.

(** stringptr_test1: test.txt holds "test", or the part before the first write error *)
Theorem c115_test1 : forall ws, test1_main true ws <> Fuel ->
  exists k, test1_main true ws = Ret (0, ztake k [116; 101; 115; 116]) /\ 0 <= k <= 4 /\ (k = 4 \/ In IoErr ws).
Proof.
  intros ws NF. unfold test1_main in *. assert (H : holds (mkSp [116; 101; 115; 116; 0] 0 4) [116; 101; 115; 116]) by (exists [], [0]; now repeat split).
  destruct (c54_tofile_prefix _ _ ws H) as (r & E & R & Q); [intros E; now rewrite E in NF|]. rewrite E. exists r. cbn [bind]. change (zlen [116; 101; 115; 116]) with 4 in *. auto.
Qed.
Print Assumptions c115_test1.
(** its exit code does not tell: 0 also if the file could not be opened or written *)
Theorem c115_test1_exit_refuted : (forall ws, test1_main false ws = Ret (0, [])) /\ forall ws, test1_main true (IoErr :: ws) = Ret (0, []).
Proof. split; reflexivity. Qed.
Print Assumptions c115_test1_exit_refuted.
Example c115_ex : test1_main true [Xfer 1; Xfer 0; Xfer 100] = Ret (0, [116; 101; 115; 116]) /\ test1_main true [Xfer 3; IoErr] = Ret (0, [116; 101; 115]) /\
  MIN (fun s => (s, s + 1)) (fun s => (7, s)) 5 = (6, 7) /\ MIN (fun s => (7, s)) (fun s => (5, s)) 1 = (5, 1) /\ MAX (fun s => (7, s)) (fun s => (5, s)) 1 = (7, 1) /\
  getFileModTime (Some 12) = 12 /\ getFileModTime (Some (-5)) = -5.
Proof. repeat split; reflexivity. Qed.
