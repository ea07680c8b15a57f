(** Property C40, exactly: what strstr_uc and strstar find. *)
From Verif Require Import Base Cstr M_str S_str P_str S_scan P_scan.

(** the result is that of the search that does not back up, for every text and needle *)
Theorem c40_strstr_uc_exact : forall text rest nd ndrest r, nz text -> nd <> [] ->
  strstr_uc (text ++ 0 :: rest) (nd ++ ndrest) (zlen nd) = Ret r <-> scan uc_match nd text r.
Proof. intros text rest nd ndrest r N Ne. exact (find_scan uc_eq uc_match uc_eq_ok text rest nd ndrest r N Ne). Qed.
Print Assumptions c40_strstr_uc_exact.
Theorem c40_strstar_exact : forall text rest nd ndrest r, nz text -> nd <> [] ->
  strstar (text ++ 0 :: rest) (nd ++ ndrest) (zlen nd) = Ret r <-> scan star_match nd text r.
Proof. intros text rest nd ndrest r N Ne. exact (find_scan star_eq star_match star_eq_ok text rest nd ndrest r N Ne). Qed.
Print Assumptions c40_strstar_exact.
(** a needle of one repeated byte: the first occurrence *)
Theorem c40_repeated_first : forall text rest nd ndrest k, nz text -> nd <> [] -> repeated nd ->
  (occurs uc_match text nd k -> exists j, strstr_uc (text ++ 0 :: rest) (nd ++ ndrest) (zlen nd) = Ret (Some j) /\ 0 <= j <= k) /\
  (occurs star_match text nd k -> exists j, strstar (text ++ 0 :: rest) (nd ++ ndrest) (zlen nd) = Ret (Some j) /\ 0 <= j <= k).
Proof.
  intros text rest nd ndrest k N Ne (c & F). split; intros O.
  - destruct (scan_total uc_eq uc_match uc_eq_ok nd Ne (S (length text)) text) as (r & X); [lia|]. destruct (scan_repeated uc_match c nd text r F X k O) as (j & -> & J).
    exists j. split; [|exact J]. now apply c40_strstr_uc_exact.
  - destruct (scan_total star_eq star_match star_eq_ok nd Ne (S (length text)) text) as (r & X); [lia|]. destruct (scan_repeated star_match c nd text r F X k O) as (j & -> & J).
    exists j. split; [|exact J]. now apply c40_strstar_exact.
Qed.
Print Assumptions c40_repeated_first.
(** exactly the needles of one repeated byte are found wherever they occur (in upper case,
    as the function asks for) *)
Theorem c40_strstr_uc_complete_iff : forall nd ndrest, nd <> [] -> Forall (fun x => x <> 0 /\ to_upper x = x) nd ->
  ((forall text rest k, nz text -> occurs uc_match text nd k -> strstr_uc (text ++ 0 :: rest) (nd ++ ndrest) (zlen nd) <> Ret None) <-> repeated nd).
Proof.
  intros nd ndrest Ne U. split.
  - intros H. destruct nd as [|c l]; [congruence|]. destruct (run_split c l) as [F|(a & d & b & -> & F & D)]; [exists c; auto|].
    destruct (uc_lost c a d b [] ndrest F D U) as [O L]. exfalso. apply (H (c :: c :: a ++ d :: b) [] 1); auto.
    assert (N : nz (c :: a ++ d :: b)) by (eapply Forall_impl; [|exact U]; cbv beta; tauto). constructor; [|exact N]. now inversion N.
  - intros RP text rest k N O E. destruct (c40_repeated_first text rest nd ndrest k N Ne RP) as [H _]. destruct (H O) as (j & E' & _). congruence.
Qed.
Print Assumptions c40_strstr_uc_complete_iff.
(** strstar: one repeated byte followed by stars *)
Theorem c40_strstar_complete_iff : forall nd ndrest, nd <> [] -> nz nd ->
  ((forall text rest k, nz text -> occurs star_match text nd k -> strstar (text ++ 0 :: rest) (nd ++ ndrest) (zlen nd) <> Ret None) <-> repeated_stars nd).
Proof.
  intros nd ndrest Ne N. split.
  - intros H. apply (stars_shape nd ndrest); [exact Ne|exact N|]. intros (text & Nt & O & E). apply (H text [] 1 Nt O E).
  - intros RS text rest k Nt O E. destruct (scan_total star_eq star_match star_eq_ok nd Ne (S (length text)) text) as (r & X); [lia|].
    destruct (scan_stars nd text r RS X k O) as (j & -> & _). apply c40_strstar_exact with (rest := rest) (ndrest := ndrest) in X; auto. congruence.
Qed.
Print Assumptions c40_strstar_complete_iff.
(** "AAB" for "AB": a miss of two bytes, then the end; "xABAA" for "AA" at 3 *)
Example c40_scan_ex : scan uc_match [65; 66] [65; 65; 66] None /\ strstr_uc [120; 65; 66; 65; 65; 0] [65; 65] 2 = Ret (Some 3) /\
  repeated [65; 65] /\ repeated_stars [65; 65; 42] /\ strstar [65; 120; 121; 65; 65; 113; 0] [65; 65; 42] 3 = Ret (Some 3).
Proof. repeat split; try reflexivity; try (now exists 65; repeat constructor). { apply (c40_strstr_uc_exact [65; 65; 66] [] [65; 66] []); try discriminate; [repeat constructor; lia|reflexivity]. } exists 65, [65; 65], [42]. repeat constructor. Qed.
