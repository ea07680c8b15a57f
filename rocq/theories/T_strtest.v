(** C109: the test programs of the string functions. *)
From Coq Require Import String Ascii.
From Verif Require Import Base Cstr S_base64 M_stringptr S_stringptr S_filelib M_hashtest P_hashtest M_strtest P_strtest.

(** base64_test: none of the 43 tests fails, whatever the arrays hold at first *)
Theorem c109_base64_test b raw : zlen b = 65 -> zlen raw = 49 -> base64_test b raw = Ret (repeat true 43).
Proof. exact (b64_test_ok b raw). Qed.
Print Assumptions c109_base64_test.
(** nor would one for any other string that fits *)
Theorem c109_base64_round b raw x : bytes x -> nz x -> zlen x <= 48 -> zlen b = 65 -> zlen raw = 49 ->
  b64_run b raw [BEnc x; BIs (b64 x); BDec (zlen x); BRaw x] = Ret [true; true; true].
Proof. exact (b64_round_ok b raw x). Qed.
Print Assumptions c109_base64_round.
Theorem c109_ipv4fromstring_test ip : zlen ip = 4 -> ipv4fromstring_test ip = Ret [true; true].
Proof. exact (ip_test_ok ip). Qed.
Print Assumptions c109_ipv4fromstring_test.
(** the loop of normalizepath_test over any paths: it prints the normal forms *)
Theorem c109_normalizepath_any mal buf ps : (forall k, zlen (buf k) = 4096) -> Forall (fun p => nz (fst p) /\ bytes (fst p) /\ zlen (fst p) < 4096) ps ->
  (forall i, (i < List.length ps)%nat -> mal i <> None) ->
  np_run mal buf 0 ps = Ret (map (fun p => (normal (fst p), Bool.eqb (snd p) match normal (fst p) with Some _ => true | None => false end)) ps).
Proof. intros L F M. apply np_run_ok; [exact L|exact F|]. intros i Hi. apply M. lia. Qed.
Print Assumptions c109_normalizepath_any.
(** normalizepath_test: with memory it passes and prints this *)
Theorem c109_normalizepath_test mal buf : (forall k, zlen (buf k) = 4096) -> (forall i, (i < 12)%nat -> mal i <> None) ->
  normalizepath_test mal buf = Ret (map (fun o => (o, true))
    [Some (lit "/usr/local"); None; Some (lit "/"); None; Some (lit "/usr/local/bin"); Some (lit "/usr/local/bin"); Some (lit "/usr/local/bin"); Some (lit "/usr"); Some (lit "/");
     Some (lit "/usr/.local/bin../.../foo"); Some (lit "/...../usr/.local/bin../.../foo"); Some (lit "/...../usr/.local/bin../.../foo")]).
Proof. intros L M. unfold normalizepath_test. rewrite c109_normalizepath_any; [vm_compute; reflexivity|exact L|exact np_paths_ok|exact M]. Qed.
Print Assumptions c109_normalizepath_test.
(** without it stringptr_copy writes through NULL *)
Theorem c109_normalizepath_no_memory mal buf i : (forall k, zlen (buf k) = 4096) -> (i < 12)%nat -> mal i = None -> normalizepath_test mal buf = UB.
Proof. intros L Hi E. apply np_run_none; [exact L|exact np_paths_ok|]. exists i. split; [cbn; lia|exact E]. Qed.
Print Assumptions c109_normalizepath_no_memory.
(** numberToString_test prints this: calls 1, 11 are padded although they do not ask for it *)
Theorem c109_numberToString_test buffer : zlen buffer = 32 -> numberToString_test buffer = Ret (map lit
  ["-0000000000000001"; "-1"; "4294967295"; "18446744073709551615"; "-1"; "-00000000000000000001"; "4294967295"; "18446744073709551615";
   "0"; "0"; "00000000000000000000"; "0"; "0"; "0"; "00000000000000000000"; "00000000000000000000"; "0"; "0"; "000000000000000000ff"; "000000000000000000ff"]%string).
Proof. exact (nts_test_ok buffer). Qed.
Print Assumptions c109_numberToString_test.
(** spformat_test: every assertion about ulz_snprintf holds *)
Theorem c109_spformat_test cbuf buf p junk : (forall k, zlen (cbuf k) = 32) -> zlen buf = 128 -> zlen junk = 128 -> sf_run cbuf 0 buf (sf_steps p junk) = Ret (repeat true 15).
Proof. intros Hc Lb Lj. rewrite sf_run_ok; [reflexivity|exact Hc|now apply sf_steps_ok|exact Lb]. Qed.
Print Assumptions c109_spformat_test.
(** the cases of stringptr_replace_test with any strings: the assertion holds iff the result got memory and
    the wanted string is the given one with each occurrence, from the left, replaced *)
Theorem c109_replace_any mc mr cs : Forall (fun '(s, what, whit, want) => what <> [] /\ zlen s < 2 ^ 20 /\ zlen what < 2 ^ 20 /\ zlen whit < 2 ^ 20 /\ zlen want < 2 ^ 20) cs ->
  (forall i, (i < List.length cs)%nat -> mc i <> None) ->
  exists es, rep_run mc mr 0 cs = Ret es /\ List.length es = List.length cs /\
    forall i s what whit want, nth_error cs i = Some (s, what, whit, want) -> exists e, nth_error es i = Some e /\ (e = true <-> mr i <> None /\ forall ps, cut what s ps -> join whit ps = want).
Proof.
  intros F M. destruct (rep_run_ok mc mr cs F 0) as (es & E & L & H); [intros i Hi; apply M; lia|]. exists es. split; [exact E|]. split; [exact L|].
  intros i s what whit want Hi. destruct (H i _ Hi) as (e & He & W). exists e. split; [exact He|]. exact W.
Qed.
Print Assumptions c109_replace_any.
(** stringptr_replace_test passes iff each allocation succeeds *)
Theorem c109_replace_test mc mr : (forall i, (i < 8)%nat -> mc i <> None) ->
  exists es, stringptr_replace_test mc mr = Ret es /\ List.length es = 8%nat /\ forall i, (i < 8)%nat -> exists e, nth_error es i = Some e /\ (e = true <-> mr i <> None).
Proof.
  intros M. set (z := fun _ : nat => Some (fun _ : Z => 0)).
  destruct (rep_run_ok z z rep_cases rep_cases_good 0) as (es0 & E0 & _ & H0); [intros i _; discriminate|].
  assert (V : es0 = repeat true 8). { assert (X : rep_run z z 0 rep_cases = Ret (repeat true 8)) by (vm_compute; reflexivity). rewrite X in E0. now inversion E0. }
  destruct (rep_run_ok mc mr rep_cases rep_cases_good 0) as (es & E & L & H); [intros i Hi; apply M; exact (proj2 Hi)|]. exists es. split; [exact E|]. split; [exact L|].
  intros i Hi. destruct (nth_error rep_cases i) as [c|] eqn:Ec; [|apply nth_error_None in Ec; change (8 <= i)%nat in Ec; lia].
  destruct (H i c Ec) as (e & He & W). exists e. split; [exact He|]. destruct (H0 i c Ec) as (e0 & He0 & W0). rewrite V in He0.
  assert (e0 = true) by (apply nth_error_In in He0; now apply repeat_spec in He0). rewrite W. apply W0 in H1 as [_ R]. tauto.
Qed.
Print Assumptions c109_replace_test.
Theorem c109_replace_no_memory mc mr i : (i < 8)%nat -> mc i = None -> stringptr_replace_test mc mr = UB.
Proof. intros Hi E. apply rep_run_none; [exact rep_cases_good|]. exists i. split; [cbn; lia|exact E]. Qed.
Print Assumptions c109_replace_no_memory.
(** a wrong expectation is noticed; "/a/../b/." *)
Example c109_ex : let m := fun _ : nat => Some (fun _ : Z => 170) in
  rep_run m m 0 [(lit "aXbX", lit "X", lit "--", lit "a--b--"); (lit "aXbX", lit "X", lit "--", lit "a--b-")] = Ret [true; false] /\
  b64_run (zrepeat 170 65) (zrepeat 170 49) [BEnc (lit "hello"); BIs (lit "aGVsbG8="); BIs (lit "aGVsbG8"); BDec 5; BRaw (lit "hello")] = Ret [true; false; true; true] /\
  normal (lit "/a/../b/.") = Some (lit "/b") /\ zlen np_paths = 12 /\ zlen nts_calls = 20.
Proof. vm_compute. repeat split; reflexivity. Qed.
