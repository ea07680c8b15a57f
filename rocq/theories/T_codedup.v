(** Properties C87 (what codedup reads) and C88 (what codedup reports). *)
From Verif Require Import Base Cstr S_fileparser M_tglist M_codedup S_codedup P_codedup P_codedup3.
From Coq Require Import Permutation.

(** C87: for text files without NUL whose lines have at most 1022 bytes the lines worked on are those selected,
    with their hashes; the assertions hold and the buffer is not exceeded *)
Theorem c87_lines_partial : forall ws start end_ input fl fuel buf,
  0 <= start < 2 ^ 64 -> 0 <= end_ < 2 ^ 64 -> file_lines input fl -> Forall (fun l => nz l /\ zlen l <= 1022) fl ->
  zlen buf = 1024 -> (length fl < fuel)%nat -> zlen fl < 2 ^ 63 ->
  read_loop fuel ws start end_ buf input 0 [] = Ret (map (fun s => (string_hash s, s)) (selected ws start end_ fl)).
Proof. exact read_all. Qed.
Print Assumptions c87_lines_partial.
(** two lines compare equal iff they are, whatever the hash does *)
Theorem c87_line_equal : forall s t, line_equal (string_hash s, s) (string_hash t, t) = true <-> s = t.
Proof.
  intros s t. unfold line_equal. cbn [fst snd]. rewrite andb_true_iff, streq_ok, Z.eqb_eq. split; [tauto|]. intros ->. auto.
Qed.
Print Assumptions c87_line_equal.
(** a line of 1023 bytes is read as two lines *)
Theorem c87_long_line_refuted : exists input l, file_lines input [l] /\ nz l /\ zlen l = 1023 /\
  read_loop 3 false 0 SIZE_MAX (zrepeat 0 1024) input 0 [] = Ret [(string_hash l, l); (string_hash [], [])].
Proof.
  exists (zrepeat 97 1023 ++ [10]), (zrepeat 97 1023). split; [|split; [|split; [reflexivity|vm_compute; reflexivity]]].
  - apply FLline; [|constructor]. intros I. apply repeat_spec in I. lia.
  - apply Forall_forall. intros c I. apply repeat_spec in I. lia.
Qed.
Print Assumptions c87_long_line_refuted.
(** -e 2 on a file of three lines takes the first line only: line 2 is neither the last line taken nor
    the first one left out *)
Theorem c87_end_refuted : exists input, file_lines input [[97]; [98]; [99]] /\
  read_loop 4 false 0 2 (zrepeat 0 1024) input 0 [] = Ret [(97, [97])].
Proof.
  exists [97; 10; 98; 10; 99; 10]. split; [|vm_compute; reflexivity].
  apply (FLline [97]); [unfold no_lf; cbn; lia|]. apply (FLline [98]); [unfold no_lf; cbn; lia|]. apply (FLline [99]); [unfold no_lf; cbn; lia|]. constructor.
Qed.
Print Assumptions c87_end_refuted.
Example c87_example : read_loop 6 true 1 SIZE_MAX (zrepeat 7 1024) [120; 10; 32; 9; 97; 32; 10; 10; 98] 0 [] =
  Ret [(97 * 16 + 32, [97; 32]); (0, []); (98, [98])].
Proof. vm_compute. reflexivity. Qed.

(** C88: every record printed is a genuine maximal duplicate, records come longest first, their blocks
    do not overlap; nothing is read out of bounds and the assertions hold.  Completeness is partial: a
    block whose first line does not recur in it and whose copy ends before the last line touches a reported block *)
Theorem c88_report_partial : forall fuel ws bl start end_ junk order buf input fl,
  0 <= start < 2 ^ 64 -> 0 <= end_ < 2 ^ 64 -> file_lines input fl -> Forall (fun l => nz l /\ zlen l <= 1022) fl -> zlen fl < 2 ^ 31 -> 1 <= bl < 2 ^ 31 ->
  zlen buf = 1024 -> (length fl < fuel)%nat -> (forall m, Permutation (order m) (map fst m)) ->
  let ls := selected ws start end_ fl in
  exists ds, codedup fuel ws bl start end_ junk order buf input = Ret ds /\
   Forall (fun d => dcnt d = zlen (dothers d) /\ good_block ls bl (dn d) (dat d - start) (map (fun b => b - start) (dothers d)) (dtext d)) ds /\
   ForallOrdPairs (fun d e => dn e < dn d \/ dn e = dn d /\ dat d < dat e) ds /\
   ForallOrdPairs (fun d e => dat d + dn d <= dat e \/ dat e + dn e <= dat d) ds /\
   (forall a b, 0 <= a -> a + bl <= b -> b + bl < zlen ls -> same ls bl a b -> ~ recurs ls bl a -> exists d, In d ds /\ dat d - start <= a < dat d - start + dn d).
Proof. exact codedup_ok. Qed.
Print Assumptions c88_report_partial.

Definition keys (m : dmap) : list Z := rev (map fst m).
Definition jk : Z -> Z * Z := fun _ => (5, 5).
(** a, b, a, b: the duplicate that ends with the last line is not found *)
Theorem c88_last_block_refuted : exists input, file_lines input [[97]; [98]; [97]; [98]] /\
  duplicate [[97]; [98]; [97]; [98]] 2 0 2 /\ codedup 20 false 2 0 SIZE_MAX jk keys (zrepeat 0 1024) input = Ret [].
Proof.
  exists [97; 10; 98; 10; 97; 10; 98; 10]. split; [|split; [|vm_compute; reflexivity]].
  - apply (FLline [97]); [unfold no_lf; cbn; lia|]. apply (FLline [98]); [unfold no_lf; cbn; lia|]. apply (FLline [97]); [unfold no_lf; cbn; lia|]. apply (FLline [98]); [unfold no_lf; cbn; lia|]. constructor.
  - unfold duplicate. split; [lia|]. split; [lia|]. split; [cbn; lia|]. split; [|left; lia]. intros k Hk. assert (k = 0 \/ k = 1) as [-> | ->] by lia; reflexivity.
Qed.
Print Assumptions c88_last_block_refuted.
(** A A B A A A B C: after the partial match of two lines at 3 the search goes on at 5 and misses A A B at 4 *)
Theorem c88_skip_refuted : exists input ls, file_lines input ls /\ zlen ls = 8 /\
  duplicate ls 3 0 4 /\ codedup 20 false 3 0 SIZE_MAX jk keys (zrepeat 0 1024) input = Ret [].
Proof.
  exists [65; 10; 65; 10; 66; 10; 65; 10; 65; 10; 65; 10; 66; 10; 67; 10], [[65]; [65]; [66]; [65]; [65]; [65]; [66]; [67]].
  split; [|split; [reflexivity|split; [|vm_compute; reflexivity]]].
  - repeat (match goal with |- file_lines (?c :: 10 :: _) _ => apply (FLline [c]); [unfold no_lf; cbn; lia|] end). constructor.
  - unfold duplicate. split; [lia|]. split; [lia|]. split; [cbn; lia|]. split; [|right; right; discriminate].
    intros k Hk. assert (k = 0 \/ k = 1 \/ k = 2) as [-> | [-> | ->]] by lia; reflexivity.
Qed.
Print Assumptions c88_skip_refuted.
(** -i 0: no end is reached in any number of rounds below 2^32 *)
Theorem c88_zero_hangs_refuted : exists input, file_lines input [[97]] /\
  forall fuel junk order buf, zlen buf = 1024 -> 1 < Z.of_nat fuel < 2 ^ 32 -> codedup fuel false 0 0 SIZE_MAX junk order buf input = Fuel.
Proof.
  exists [97; 10]. assert (FL : file_lines [97; 10] [[97]]) by (apply (FLline [97]); [unfold no_lf; cbn; lia|constructor]). split; [exact FL|].
  intros fuel junk order buf Lb F. unfold codedup.
  rewrite (read_all false 0 SIZE_MAX [97; 10] [[97]]); [|lia|unfold SIZE_MAX; lia|exact FL|repeat constructor; cbn; lia|exact Lb|cbn; lia|cbn; lia].
  change (map mkline (selected false 0 SIZE_MAX [[97]])) with [mkline [97]]. cbn [bind]. unfold search. change (0 <? u64 (0 + 1)) with true. cbv iota.
  rewrite (zero_hangs junk (mkline [97]) fuel [] []); [reflexivity|reflexivity|constructor|change (zlen []) with 0; lia].
Qed.
Print Assumptions c88_zero_hangs_refuted.
(** -i -2 on five equal lines reads past the end of the list of lines *)
Theorem c88_negative_refuted : exists input, file_lines input [[97]; [97]; [97]; [97]; [97]] /\
  codedup 20 false (2 ^ 64 - 2) 0 SIZE_MAX jk keys (zrepeat 0 1024) input = UB.
Proof.
  exists [97; 10; 97; 10; 97; 10; 97; 10; 97; 10]. split; [|vm_compute; reflexivity].
  repeat (match goal with |- file_lines (?c :: 10 :: _) _ => apply (FLline [c]); [unfold no_lf; cbn; lia|] end). constructor.
Qed.
Print Assumptions c88_negative_refuted.
(** x y z - x y - x y z . *)
Example c88_example :
  codedup 30 false 2 0 SIZE_MAX jk keys (zrepeat 0 1024)
    [120; 10; 121; 10; 122; 10; 45; 10; 120; 10; 121; 10; 43; 10; 120; 10; 121; 10; 122; 10; 46; 10; 113; 10; 114; 10; 113; 10; 114; 10; 115; 10] =
  Ret [mkDup 3 0 1 [7] [[120]; [121]; [122]]; mkDup 2 4 1 [7] [[120]; [121]]; mkDup 2 11 1 [13] [[113]; [114]]].
Proof. vm_compute. reflexivity. Qed.
Example c88_order : forall m, Permutation (keys m) (map fst m).
Proof. intros. symmetry. apply Permutation_rev. Qed.
