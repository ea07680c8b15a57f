(** Property C41, exactly: what findword finds. *)
From Verif Require Import Base Cstr M_str S_str P_str S_scan P_scan P_words.

(** the result for every text and word *)
Theorem c41_findword_exact : forall text rest nd ndrest r, nz text -> nd <> [] ->
  findword (text ++ 0 :: rest) (nd ++ ndrest) (zlen nd) = Ret r <-> words nd text r.
Proof. exact findword_words. Qed.
Print Assumptions c41_findword_exact.
(** a word without separators is found if the text has it as a whole word *)
Theorem c41_findword_complete : forall text rest nd ndrest k, nz text -> nd <> [] -> Forall (fun c => ~ sep_before c) nd ->
  whole_word text nd k -> exists j, findword (text ++ 0 :: rest) (nd ++ ndrest) (zlen nd) = Ret (Some j) /\ 0 <= j <= k.
Proof.
  intros text rest nd ndrest k N Ne NS W. destruct (words_total nd Ne (S (length text)) text) as (r & X); [lia|].
  destruct (words_reaches nd text r Ne NS X k W) as (j & -> & J). exists j. split; [now apply c41_findword_exact|exact J].
Qed.
Print Assumptions c41_findword_complete.
(** and if it has two different bytes, the result is its first place as a whole word *)
Theorem c41_findword_first : forall text rest nd ndrest a b, nz text -> In a nd -> In b nd -> a <> b -> Forall (fun c => ~ sep_before c) nd ->
  (exists k, findword (text ++ 0 :: rest) (nd ++ ndrest) (zlen nd) = Ret (Some k) /\ whole_word text nd k /\ forall j, whole_word text nd j -> k <= j) \/
  (findword (text ++ 0 :: rest) (nd ++ ndrest) (zlen nd) = Ret None /\ forall j, ~ whole_word text nd j).
Proof.
  intros text rest nd ndrest a b N Ia Ib AB NS. assert (Ne : nd <> []) by (intros ->; contradiction).
  destruct (findword_whole text rest nd ndrest a b N Ia Ib AB) as ([k|] & E & W); [left; exists k|right]; (split; [exact E|]).
  - split; [exact W|]. intros j J. destruct (c41_findword_complete text rest nd ndrest j N Ne NS J) as (i & E' & I). rewrite E in E'. injection E' as <-. lia.
  - intros j J. destruct (c41_findword_complete text rest nd ndrest j N Ne NS J) as (i & E' & I). congruence.
Qed.
Print Assumptions c41_findword_first.
(** "AB AB CD" has the word "AB CD" at 3, which is not found *)
Theorem c41_findword_separator_refuted : exists text nd k, nz text /\ whole_word text nd k /\ findword (text ++ [0]) (nd ++ [0]) (zlen nd) = Ret None.
Proof.
  exists [65; 66; 32; 65; 66; 32; 67; 68], [65; 66; 32; 67; 68], 3. split; [repeat constructor; discriminate|]. split; [|reflexivity]. repeat split.
  - exists [65; 66; 32], [65; 66; 32; 67; 68], []. repeat split. repeat constructor.
  - right. exists [65; 66], 32, [65; 66; 32; 67; 68]. repeat split. now left.
  - left. reflexivity.
Qed.
Print Assumptions c41_findword_separator_refuted.
(** "abab, AB" has the word AB at 6 only *)
Example c41_first_ex : findword [97; 98; 97; 98; 44; 32; 65; 66; 0] [65; 66; 0] 2 = Ret (Some 6) /\ whole_word [97; 98; 97; 98; 44; 32; 65; 66] [65; 66] 6 /\ Forall (fun c => ~ sep_before c) [65; 66].
Proof.
  split; [reflexivity|]. split.
  - repeat split; [exists [97; 98; 97; 98; 44; 32], [65; 66], []; repeat split; repeat constructor|right; exists [97; 98; 97; 98; 44], 32, [65; 66]; repeat split; now left|left; reflexivity].
  - repeat constructor; unfold sep_before; cbn [In]; lia.
Qed.
