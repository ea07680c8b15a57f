(** C70: filelist_search when memory runs out, exactly. *)
From Verif Require Import Base Cstr M_stringptr D_stringptr P_stringptr M_filelist S_filelist P_filelist T_filelist S_flmem.

Lemma list_loop_exact f add pathv ns : Forall2 is_name pathv ns -> forall k files ts, Forall2 holds files ts ->
  let names := map (shown f) (filter (listed f) ns) in
  if all_added add k names then exists files', Forall2 holds files' (ts ++ names) /\ list_loop (flf_val f) add pathv k files = Ret (0, files')
  else list_loop (flf_val f) add pathv k files = Ret (-1, []).
Proof.
  induction 1 as [|b n pathv ns (H & L & r & ->) F IH]; intros k files ts Hf; cbn [list_loop filter map all_added].
  - exists files. rewrite app_nil_r. auto.
  - destruct (list_name_ok f n r H L) as (s & Hs & ->). cbn [bind]. unfold opt_name. destruct (listed f n); [|apply IH; exact Hf]. cbn [map all_added].
    destruct (add k); cbn [andb]; [|reflexivity].
    specialize (IH (k + 1) (files ++ [s]) (ts ++ [shown f n])). cbv zeta in IH. rewrite <- app_assoc in IH. apply IH. apply Forall2_app; [exact Hf|now constructor].
Qed.
(** C70: no list, no result; an addition of a name that fails gives -1 and no list; one of "./" and "../"
    that fails goes unnoticed: the result is 0 and the entry is missing *)
Theorem c70_memory_exact : forall glob new add buf dir mask d m f pathv ns, zlen buf = 4096 -> search_dir dir d -> holds mask m -> nz d -> nz m -> m <> [] -> zlen d < 2 ^ 62 ->
  zlen (escape d) + zlen m + 2 < 4096 -> glob (escape d ++ sep d ++ m) (gflags f) = (0, pathv) -> Forall2 is_name pathv ns ->
  let names := map (shown f) (filter (listed f) ns) in
  let call := Some (escape d ++ sep d ++ m, gflags f) in
  let run := filelist_search glob new add buf dir (Some mask) (flf_val f) in
  if new && all_added add (zlen (extra f)) names
  then exists files, Forall2 holds files (kept add 0 (extra f) ++ names) /\ run = Ret (0, files, call)
  else run = Ret (-1, [], call).
Proof.
  intros glob new add buf dir mask d m f pathv ns Lb Hd Hm Nd Nm Ne Bd A G F names call run.
  assert (Bm : zlen m < 2 ^ 62) by (pose proof (zlen_nonneg (escape d)); lia). unfold run. rewrite (search_ok glob new add buf dir mask d m f) by assumption.
  unfold PATH_MAX. replace (_ <? 4096) with true by lia. unfold after_glob. rewrite G. cbn [Z.eqb negb]. destruct new; cbn [negb andb]; [|reflexivity].
  assert (H1 : holds (mkSp [46; 47; 0] 0 2) [46; 47]) by (exists [], [0]; unfold holds_in; cbn; repeat split; reflexivity || lia).
  assert (H2 : holds (mkSp [46; 46; 47; 0] 0 3) [46; 46; 47]) by (exists [], [0]; unfold holds_in; cbn; repeat split; reflexivity || lia).
  cbv zeta.
  match goal with |- context [list_loop _ _ _ ?k ?fs] => assert (E : k = zlen (extra f) /\ Forall2 holds fs (kept add 0 (extra f))) end.
  { unfold extra. destruct (f_hidden f), (f_dot f), (f_dotdot f); cbn [negb andb app kept]; (split; [reflexivity|]); try change (0 + 1) with 1; try destruct (add 0); try destruct (add 1); cbn [app]; repeat constructor; assumption. }
  destruct E as [-> Hx].
  pose proof (list_loop_exact f add pathv ns F (zlen (extra f)) _ _ Hx) as Q. cbv zeta in Q. fold names in Q. destruct (all_added add (zlen (extra f)) names).
  - destruct Q as (files & Hf & ->). exists files. split; [exact Hf|reflexivity].
  - rewrite Q. reflexivity.
Qed.
Print Assumptions c70_memory_exact.
(** "./" is asked for and lost, and nobody is told *)
Theorem c70_dot_lost_refuted : forall glob buf dir mask d m pathv ns nopath, zlen buf = 4096 -> search_dir dir d -> holds mask m -> nz d -> nz m -> m <> [] -> zlen d < 2 ^ 62 ->
  zlen (escape d) + zlen m + 2 < 4096 -> let f := mkFlf true false nopath false in glob (escape d ++ sep d ++ m) 2 = (0, pathv) -> Forall2 is_name pathv ns ->
  exists files, Forall2 holds files (map (shown f) ns) /\
    filelist_search glob true (fun k => negb (k =? 0)) buf dir (Some mask) (flf_val f) = Ret (0, files, Some (escape d ++ sep d ++ m, 2)).
Proof.
  intros glob buf dir mask d m pathv ns nopath Lb Hd Hm Nd Nm Ne Bd A f G F.
  pose proof (c70_memory_exact glob true (fun k => negb (k =? 0)) buf dir mask d m f pathv ns Lb Hd Hm Nd Nm Ne Bd A G F) as Q. cbv zeta in Q.
  assert (AA : forall ts k, 1 <= k -> all_added (fun k => negb (k =? 0)) k ts = true).
  { induction ts as [|t ts IH]; intros k K; [reflexivity|]. cbn [all_added]. replace (k =? 0) with false by lia. apply IH. lia. }
  rewrite AA in Q by (cbn; lia). cbn [andb] in Q. destruct Q as (files & Hf & E). exists files. split; [|exact E].
  replace (filter (listed f) ns) with ns in Hf; [exact Hf|]. clear. induction ns as [|n ns IH]; [reflexivity|]. cbn [filter]. change (listed f n) with true. cbv iota. now f_equal.
Qed.
Print Assumptions c70_dot_lost_refuted.
Example c70_memory_ex : let glob pat fl := (0, [[97; 47; 99; 0]; [97; 47; 100; 47; 0]]) in
  let run new add fl := (let* (r, files, c) := filelist_search glob new add (zrepeat 7 4096) (Some (mkSp [97; 0] 0 1)) (Some (mkSp [42; 0] 0 1)) fl in Ret (r, map (fun s => ztake (sz s) (zdrop (so s) (sb s))) files)) in
  run true (fun k => negb (k =? 0)) 7 = Ret (0, [[46; 46; 47]; [99]; [100; 47]]) /\ run true (fun k => negb (k =? 3)) 7 = Ret (-1, []) /\ run false (fun _ => true) 7 = Ret (-1, []).
Proof. repeat split; vm_compute; reflexivity. Qed.
