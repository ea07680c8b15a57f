(** C51-C54, C73 (read_stdin_line): fileparser and the file functions of stringptr *)
From Verif Require Import Base Bits Cstr M_stringptr M_spl M_fileparser M_spfile S_stringptr S_fileparser D_stringptr D_fileparser
  P_stringptr P_fileparser P_spfile.

(** C51: b is the caller's buffer of n bytes, g the memory behind it *)
Theorem c51_readline_yields_lines :
  forall fd junk content ls b g n k, fd <> 0 -> zlen content < 2 ^ 63 -> file_lines content ls -> Forall (fun l => zlen l < n) ls -> zlen b = n -> 0 <= n ->
  exists b', zlen b' = n /\
    calls k (fileparser_open fd junk content) (b ++ g) n = Ret (firstn k (map (fun l => Line (l ++ [0])) ls ++ repeat (Code (-2)) k), b' ++ g).
Proof. intros. eapply calls_ok; eauto. now apply open_rest. Qed.
Print Assumptions c51_readline_yields_lines.
Theorem c51_every_file_has_lines : forall content, exists ls, file_lines content ls.
Proof. exact file_lines_total. Qed.
Print Assumptions c51_every_file_has_lines.
(** a line that does not fit: c is a piece of n bytes without LF at the read position *)
Theorem c51_long_line :
  forall p pre c r b g n, ffd p <> 0 -> fcont p = pre ++ c ++ r -> foff p = zlen pre -> fpos p = foff p -> zlen (fcont p) < 2 ^ 63 ->
    ~ In 10 c -> zlen c = n -> zlen b = n -> 1 <= n ->
  exists p' b', readline_userbuf None None p (b ++ g) n = Ret (-3, p', b' ++ g) /\ zlen b' = n /\ fpos p' = fpos p /\ foff p' = foff p /\ fcont p' = fcont p.
Proof.
  intros p pre c r b g n Hfd E Ho Hp L N Lc Lb Hn. exists (mkFp (fpos p) n (ffd p) (fcont p) (fpos p)), c.
  split; [|cbn; auto]. apply (readline_long p c r); auto. split; auto. split; auto. split; eauto.
Qed.
Print Assumptions c51_long_line.
(** a failing read leaves everything as it was; descriptor 0 is refused *)
Theorem c51_read_error : forall e sk p buf n, ffd p <> 0 -> readline_userbuf (Some e) sk p buf n = Ret (e, p, buf).
Proof. intros e sk p buf n H. unfold readline_userbuf. now replace (ffd p =? 0) with false by lia. Qed.
Print Assumptions c51_read_error.
(** a failing lseek: data are the bytes read.  Its error is the result exactly if the end of the data is not where the
    next line begins, and then the read position of the file stays behind all the data *)
Theorem c51_seek_error : forall e p buf n r p' buf', 0 <= n -> readline_userbuf None None p buf n = Ret (r, p', buf') ->
  let data := ztake n (zdrop (foff p) (fcont p)) in
  (ffd p <> 0 /\ data <> [] /\ (In 10 data \/ zlen data = n) ->
     readline_userbuf None (Some e) p buf n = Ret (e, mkFp (fpos p') (flen p') (ffd p') (fcont p') (foff p + zlen data), buf')) /\
  (ffd p = 0 \/ data = [] \/ (~ In 10 data /\ zlen data <> n) -> readline_userbuf None (Some e) p buf n = Ret (r, p', buf')).
Proof. exact readline_seek_error. Qed.
Print Assumptions c51_seek_error.
Example c51_seek_error_ex :
  readline_userbuf None (Some (-5)) (mkFp 0 0 3 [97; 10; 98; 99] 0) [7; 7; 7; 7] 4 = Ret (-5, mkFp 2 1 3 [97; 10; 98; 99] 4, [97; 0; 98; 99]) /\
  readline_userbuf None (Some (-5)) (mkFp 2 0 3 [97; 10; 98; 99] 2) [7; 7; 7; 7] 4 = Ret (0, mkFp 5 2 3 [97; 10; 98; 99] 4, [98; 99; 0; 7]).
Proof. vm_compute. auto. Qed.
Theorem c51_descriptor_zero_refused : forall rd sk p buf n, ffd p = 0 -> readline_userbuf rd sk p buf n = Ret (-1, p, buf).
Proof. intros rd sk p buf n H. unfold readline_userbuf. now rewrite H. Qed.
Print Assumptions c51_descriptor_zero_refused.
Example c51_example :
  calls 5 (fileparser_open 3 77 [97; 98; 10; 10; 99; 100; 101]) ([7; 7; 7; 7; 7] ++ [55; 66]) 5
  = Ret ([Line [97; 98; 0]; Line [0]; Line [99; 100; 101; 0]; Code (-2); Code (-2)], [99; 100; 101; 0; 99; 55; 66]) /\
  calls 2 (fileparser_open 3 77 [97; 98; 99; 10]) ([7; 7; 7] ++ [55; 66]) 3 = Ret ([Code (-3); Code (-3)], [97; 98; 99; 55; 66]).
Proof. vm_compute. auto. Qed.

(** C52 *)
Theorem c52_getnextlinelength_partial :
  forall fuel p b pre r l lf, ffd p <> 0 -> fcont p = pre ++ r -> foff p = zlen pre -> fpos p = foff p -> zlen (fcont p) < 2 ^ 63 ->
    next_line r l lf -> zlen b = 1024 -> (Z.to_nat (zlen l) < fuel)%nat -> (lf = true \/ (zlen l) mod 1024 <> 0) ->
  exists p' b', getnextlinelength fuel p b = Ret (zlen l, p', b') /\ fpos p' = fpos p /\ foff p' = foff p /\ zlen b' = 1024.
Proof.
  intros fuel p b pre r l lf Hfd E Ho Hp L Hn Lb Hf Hc.
  destruct (getnext_ok fuel p b r l lf) as (p' & b' & E' & H1 & H2 & H3 & H4); auto; [|exists p', b'; auto].
  split; auto. split; auto. split; eauto.
Qed.
Print Assumptions c52_getnextlinelength_partial.
Theorem c52_eof : forall fuel p b, (0 < fuel)%nat -> ffd p <> 0 -> foff p = zlen (fcont p) -> zlen (fcont p) < 2 ^ 63 ->
  exists b', getnextlinelength fuel p b = Ret (-1, p, b').
Proof.
  intros fuel p b Hf Hfd Ho L. destruct fuel as [|fuel]; [lia|]. exists b. unfold getnextlinelength. cbn [nextlen_loop]. unfold readline.
  assert (R : at_rest p []) by (split; [auto|split; [auto|split; [exists (fcont p); rewrite app_nil_r; auto|congruence]]]).
  rewrite (readline_eof p b 1024 R) by lia. reflexivity.
Qed.
Print Assumptions c52_eof.
(** an unterminated last line of 1024*k bytes, k >= 1, is reported as end of file, and the
    position is not put back *)
Theorem c52_multiple_of_1024_refuted :
  forall fuel p b pre r, ffd p <> 0 -> fcont p = pre ++ r -> foff p = zlen pre -> fpos p = foff p -> zlen (fcont p) < 2 ^ 63 ->
    ~ In 10 r -> zlen b = 1024 -> (Z.to_nat (zlen r) < fuel)%nat -> (zlen r) mod 1024 = 0 ->
  exists p' b', getnextlinelength fuel p b = Ret (-1, p', b') /\ fpos p' = fpos p + zlen r.
Proof.
  intros fuel p b pre r Hfd E Ho Hp L N Lb Hf M. apply getnext_bad; auto. split; auto. split; auto. split; eauto.
Qed.
Print Assumptions c52_multiple_of_1024_refuted.
Example c52_example :
  let b := repeat 7 1024 in
  let run c := match getnextlinelength 9 (fileparser_open 3 0 c) b with Ret (r, p, _) => (r, fpos p, foff p) | _ => (0, 0, 0) end in
  run (repeat 65 2049 ++ [10; 66]) = (2049, 0, 0) /\ run (repeat 65 1500) = (1500, 0, 0) /\
  run (repeat 65 1024 ++ [10]) = (1024, 0, 0) /\ run (repeat 65 1024) = (-1, 1024, 1024).
Proof. vm_compute. auto. Qed.

(** C53 *)
Definition complete (w : io) : Prop := exists k, w = Xfer k /\ 2 ^ 63 <= k.
Theorem c53_tofile :
  forall l ts ws, Forall2 holds l ts -> length ws = (2 * length l)%nat -> Forall complete ws ->
  stringptrlist_tofile true l ws = Ret (1, lines [10] ts).
Proof. intros l ts ws H L F. exact (spl_tofile_ok l ts H ws [] L F). Qed.
Print Assumptions c53_tofile.
(** with short writes or errors: 0 and a prefix; 1 only if everything was written *)
Theorem c53_tofile_prefix :
  forall l ts ws, Forall2 holds l ts -> stringptrlist_tofile true l ws <> Fuel ->
  exists r f, stringptrlist_tofile true l ws = Ret (r, f) /\ (r = 1 /\ f = lines [10] ts \/ r = 0 /\ exists f2, lines [10] ts = f ++ f2).
Proof.
  intros l ts ws H NF. destruct (spl_tofile_prefix l ts H ws []) as [F|(r & q & Hq & F)]; [contradiction|]. exists r, q. auto.
Qed.
Print Assumptions c53_tofile_prefix.
Theorem c53_roundtrip_partial :
  forall l ts ws fuel mem fd junk buf, Forall2 holds l ts -> length ws = (2 * length l)%nat -> Forall complete ws ->
    Forall (fun t => ~ In 10 t /\ 1 <= zlen t < 1024) ts -> zlen (lines [10] ts) < 2 ^ 63 ->
    fd <> 0 -> zlen buf = 1024 -> (length ts < fuel)%nat -> length mem = length ts -> Forall (fun m => fst m <> None /\ snd m = true) mem ->
  exists content l', stringptrlist_tofile true l ws = Ret (1, content) /\ stringptrlist_fromfile fuel mem fd junk buf content = Ret (1, l') /\ Forall2 holds l' ts.
Proof.
  intros l ts ws fuel mem fd junk buf H L F Ft Lt Hfd Lb Hf Lm Fm. exists (lines [10] ts), (map (fun t => mkSp (t ++ [0]) 0 (zlen t)) ts).
  split; [now apply c53_tofile|]. unfold stringptrlist_fromfile.
  rewrite (spl_fromfile_ok ts fuel mem _ buf [] (open_rest fd junk _ Hfd Lt) Ft Hf Lm Fm Lb). split; [reflexivity|].
  clear -Ft. induction Ft as [|t ts [_ B] _ IH]; constructor; auto. exists [], [0]. split; [reflexivity|]. split; [reflexivity|]. split; [reflexivity|]. cbn [sb]. zl. lia.
Qed.
Print Assumptions c53_roundtrip_partial.
(** an empty string, or one of 1024 bytes or more, silently ends the reading *)
Theorem c53_roundtrip_refuted :
  exists ts1 ts2 m, m = (Some (fun _ => 0), true) /\
    ts1 = [[65]; []; [66]] /\ stringptrlist_fromfile 10 [m; m; m] 3 0 (repeat 7 1024) (lines [10] ts1) = Ret (1, [mkSp [65; 0] 0 1]) /\
    ts2 = [[65]; repeat 66 1024; [67]] /\ stringptrlist_fromfile 10 [m; m; m] 3 0 (repeat 7 1024) (lines [10] ts2) = Ret (1, [mkSp [65; 0] 0 1]).
Proof.
  eexists _, _, _. split; [reflexivity|]. split; [reflexivity|]. split; [vm_compute; reflexivity|]. split; [reflexivity|]. vm_compute. reflexivity.
Qed.
Print Assumptions c53_roundtrip_refuted.
Theorem c53_dup_entries :
  forall l ts mem, Forall2 holds l ts -> length mem = length l -> Forall (fun m => m <> None) mem ->
  stringptrlist_dup_entries mem l = Ret (-1, map (fun t => mkSp (t ++ [0]) 0 (zlen t)) ts).
Proof. intros l ts mem H L F. exact (dup_ok l ts H mem 0 L F). Qed.
Print Assumptions c53_dup_entries.
Theorem c53_dup_entries_fails :
  forall l1 ts mem s l2 m2, Forall2 holds l1 ts -> length mem = length l1 -> Forall (fun m => m <> None) mem ->
  stringptrlist_dup_entries (mem ++ None :: m2) (l1 ++ s :: l2) = Ret (zlen l1, map (fun t => mkSp (t ++ [0]) 0 (zlen t)) ts ++ s :: l2).
Proof. intros l1 ts mem s l2 m2 H L F. exact (dup_fails l1 ts H mem 0 s l2 m2 L F). Qed.
Print Assumptions c53_dup_entries_fails.
Example c53_example :
  let m := (Some (fun _ => 9), true) in let w := Xfer (2 ^ 63) in
  let sp t := mkSp (t ++ [5]) 0 (zlen t) in
  stringptrlist_tofile true [sp [65; 66]; sp [67]] [w; w; w; w] = Ret (1, [65; 66; 10; 67; 10]) /\
  stringptrlist_tofile true [sp [65; 66]; sp [67]] [w; w; Xfer 0] = Ret (0, [65; 66; 10]) /\
  stringptrlist_fromfile 5 [m; m] 3 0 (repeat 7 1024) [65; 66; 10; 67; 10] = Ret (1, [mkSp [65; 66; 0] 0 2; mkSp [67; 0] 0 1]).
Proof. vm_compute. auto. Qed.

(** C54: [moves]: transfers at least one byte *)
Theorem c54_tofile_all :
  forall s t ws, holds s t -> Forall moves ws -> zlen t <= zlen ws -> stringptr_tofile true ws s = Ret (zlen t, t).
Proof. intros s t ws H F L. zpos. apply (tofile_loop_all s t H ws 0); auto; lia. Qed.
Print Assumptions c54_tofile_all.
Theorem c54_tofile_prefix :
  forall s t ws, holds s t -> stringptr_tofile true ws s <> Fuel ->
  exists r, stringptr_tofile true ws s = Ret (r, ztake r t) /\ 0 <= r <= zlen t /\ (r = zlen t \/ In IoErr ws).
Proof. intros s t ws H NF. zpos. destruct (tofile_loop_prefix s t H ws 0) as [F|F]; [lia|contradiction|exact F]. Qed.
Print Assumptions c54_tofile_prefix.
Theorem c54_tofile_zero_write_hangs : forall s t n, holds s t -> t <> [] -> stringptr_tofile true (repeat (Xfer 0) n) s = Fuel.
Proof. exact tofile_stuck. Qed.
Print Assumptions c54_tofile_zero_write_hangs.
(** the returned size tells whether the text is in the file, opened or not, unless the text is empty *)
Theorem c54_tofile_success :
  forall opened ws s t r w, holds s t -> t <> [] -> stringptr_tofile opened ws s = Ret (r, w) -> (r = zlen t <-> w = t).
Proof.
  intros [|] ws s t r w H Ne E.
  - zpos. destruct (c54_tofile_prefix s t ws H) as (r' & E' & R & _); [rewrite E; discriminate|]. rewrite E in E'. injection E' as -> ->. split; [intros ->; apply ztake_all; lia|]. intros Et. pose proof (zlen_ztake r' t R) as L. rewrite Et in L. lia.
  - injection E as <- <-. split; [intros L; destruct t; [reflexivity|rewrite zlen_cons in L; pose proof (zlen_nonneg t); lia]|congruence].
Qed.
Print Assumptions c54_tofile_success.
Theorem c54_tofile_empty_refuted : exists s, holds s [] /\ forall ws, stringptr_tofile false ws s = Ret (0, []) /\ stringptr_tofile true ws s = Ret (0, []).
Proof. exists (mkSp [0] 0 0). split; [now exists [], [0]|]. intros [|w ws]; split; reflexivity. Qed.
Print Assumptions c54_tofile_empty_refuted.
Theorem c54_fromfile_all :
  forall junk rs content, content <> [] -> zlen content < 2 ^ 64 - 17 -> Forall moves rs -> zlen content <= zlen rs ->
  exists r, stringptr_fromfile (zlen content) true (Some junk) rs content = Ret (Some r) /\ new_with r content.
Proof. exact fromfile_all. Qed.
Print Assumptions c54_fromfile_all.
Theorem c54_fromfile_outcomes :
  forall size opened mal rs content, 0 <= size < 2 ^ 64 - 17 -> stringptr_fromfile size opened mal rs content <> Fuel ->
  stringptr_fromfile size opened mal rs content = Ret None /\ (size = 0 \/ opened = false \/ mal = None \/ In IoErr rs) \/
  exists r, stringptr_fromfile size opened mal rs content = Ret (Some r) /\ size <= zlen content /\ new_with r (ztake size content).
Proof. intros size opened mal rs content H NF. destruct (fromfile_ok size opened mal rs content H) as [F|F]; [contradiction|exact F]. Qed.
Print Assumptions c54_fromfile_outcomes.
(** an empty file is indistinguishable from a missing one *)
Theorem c54_empty_file_is_null : forall opened mal rs content, stringptr_fromfile 0 opened mal rs content = Ret None.
Proof. reflexivity. Qed.
Print Assumptions c54_empty_file_is_null.
Theorem c54_shrunk_file_hangs :
  forall size junk rs content, zlen content < size < 2 ^ 64 - 17 -> ~ In IoErr rs -> stringptr_fromfile size true (Some junk) rs content = Fuel.
Proof. exact fromfile_short. Qed.
Print Assumptions c54_shrunk_file_hangs.
Example c54_example :
  let s := mkSp [9; 1; 2; 3; 4; 0] 1 4 in
  stringptr_tofile true [Xfer 1; Xfer 2; Xfer 100] s = Ret (4, [1; 2; 3; 4]) /\
  stringptr_tofile true [Xfer 1; Xfer 2; IoErr] s = Ret (3, [1; 2; 3]) /\
  stringptr_fromfile 4 true (Some (fun _ => 7)) [Xfer 3; Xfer 0; Xfer 9] [1; 2; 3; 4] = Ret (Some (mkSp (repeat 7 16 ++ [1; 2; 3; 4; 0]) 16 4)) /\
  stringptr_fromfile 4 true (Some (fun _ => 7)) [Xfer 3; IoErr] [1; 2; 3; 4] = Ret None.
Proof. vm_compute. auto. Qed.

(** C73, read_stdin_line: a line that is terminated and fits *)
Theorem c73_read_stdin_line_partial :
  forall b g n chomp l rest, zlen b = n -> ~ In 10 l -> nz l -> zlen l + 1 < n ->
  exists b', read_stdin_line (b ++ g) n chomp (l ++ 10 :: rest) =
      Ret (Some (mkSp (b' ++ g) 0 (if chomp =? 0 then zlen l + 1 else zlen l)), rest) /\
    zlen b' = n /\ if chomp =? 0 then ztake (zlen l + 2) b' = l ++ [10; 0] else ztake (zlen l + 1) b' = l ++ [0].
Proof.
  intros b g n chomp l rest Lb N Nz L. zpos.
  destruct (stdin_line b g n chomp (l ++ 10 :: rest) (l ++ [10]) l 10) as (b' & E & L' & T); auto.
  - apply fgets_take_lf; auto. unfold zlen in L. lia.
  - apply nz_app. split; auto. constructor; [lia|constructor].
  - zl. lia.
  - exists b'. rewrite E. replace (zdrop (zlen (l ++ [10])) (l ++ 10 :: rest)) with rest.
    2:{ change (l ++ 10 :: rest) with (l ++ [10] ++ rest). rewrite app_assoc. now rewrite zdrop_app_exact. }
    assert (ZL : zlen (l ++ [10]) = zlen l + 1) by (zl; lia). rewrite ZL in *. split; [reflexivity|]. split; [exact L'|].
    destruct (chomp =? 0); [|exact T]. rewrite <- app_assoc in T. replace (zlen l + 2) with (zlen l + 1 + 1) by lia. exact T.
Qed.
Print Assumptions c73_read_stdin_line_partial.
(** no LF (end of input, or line longer than the buffer): chomp removes the last character *)
Theorem c73_read_stdin_line_refuted :
  forall b g n a x rest, zlen b = n -> ~ In 10 (a ++ [x]) -> nz (a ++ [x]) -> (zlen a + 2 = n \/ rest = [] /\ zlen a + 2 <= n) ->
  exists b', read_stdin_line (b ++ g) n 1 ((a ++ [x]) ++ rest) = Ret (Some (mkSp (b' ++ g) 0 (zlen a)), rest) /\ ztake (zlen a + 1) b' = a ++ [0].
Proof.
  intros b g n a x rest Lb N Nz H. zpos.
  destruct (stdin_line b g n 1 ((a ++ [x]) ++ rest) (a ++ [x]) a x) as (b' & E & L' & T); auto.
  - destruct H as [H|[-> H]].
    + apply fgets_take_long; auto. rewrite app_length. cbn. unfold zlen in H. lia.
    + rewrite app_nil_r. rewrite fgets_take_no by auto. apply firstn_all2. rewrite app_length. cbn. unfold zlen in H. lia.
  - zl. lia.
  - exists b'. rewrite E, zdrop_app_exact. split; [reflexivity|exact T].
Qed.
Print Assumptions c73_read_stdin_line_refuted.
Example c73_read_stdin_line_example :
  read_stdin_line [7; 7; 7; 7; 7] 5 1 [97; 98; 10; 99] = Ret (Some (mkSp [97; 98; 0; 0; 7] 0 2), [99]) /\
  read_stdin_line [7; 7; 7; 7; 7] 5 1 [97; 98] = Ret (Some (mkSp [97; 0; 0; 7; 7] 0 1), []) /\
  read_stdin_line [7; 7; 7; 7; 7] 5 1 [] = Ret (None, []).
Proof. vm_compute. auto. Qed.
