(** Property theorems about the string helpers: C40, C41, C42 and strdup_n of C73. *)
From Verif Require Import Base Bits Cstr S_num S_hex M_hex M_str S_str P_str.

(** C40: the search ends, reads nothing outside the two buffers, and a result is an
    occurrence (ndrest: whatever follows the needle in memory, not even a NUL is needed) *)
Theorem c40_strstr_uc_finds_occurrence :
  forall text rest nd ndrest, nz text ->
    exists r, strstr_uc (text ++ 0 :: rest) (nd ++ ndrest) (zlen nd) = Ret r /\
      match r with None => True | Some k => nd <> [] /\ occurs uc_match text nd k end.
Proof. exact (find_api_sound uc_eq uc_match uc_eq_ok). Qed.
Print Assumptions c40_strstr_uc_finds_occurrence.
Theorem c40_strstar_finds_occurrence :
  forall text rest nd ndrest, nz text ->
    exists r, strstar (text ++ 0 :: rest) (nd ++ ndrest) (zlen nd) = Ret r /\
      match r with None => True | Some k => nd <> [] /\ occurs star_match text nd k end.
Proof. exact (find_api_sound star_eq star_match star_eq_ok). Qed.
Print Assumptions c40_strstar_finds_occurrence.
(** one-byte needles: the first match, or none *)
Theorem c40_strstr_uc_char_complete :
  forall text rest n0 ndrest, nz text ->
  (exists p x q, text = p ++ x :: q /\ uc_match x n0 /\ Forall (fun c => ~ uc_match c n0) p /\
     strstr_uc (text ++ 0 :: rest) ([n0] ++ ndrest) 1 = Ret (Some (zlen p))) \/
  (Forall (fun c => ~ uc_match c n0) text /\ strstr_uc (text ++ 0 :: rest) ([n0] ++ ndrest) 1 = Ret None).
Proof. exact (find_api_char uc_eq uc_match uc_eq_ok). Qed.
Print Assumptions c40_strstr_uc_char_complete.
Theorem c40_strstar_char_complete :
  forall text rest n0 ndrest, nz text ->
  (exists p x q, text = p ++ x :: q /\ star_match x n0 /\ Forall (fun c => ~ star_match c n0) p /\
     strstar (text ++ 0 :: rest) ([n0] ++ ndrest) 1 = Ret (Some (zlen p))) \/
  (Forall (fun c => ~ star_match c n0) text /\ strstar (text ++ 0 :: rest) ([n0] ++ ndrest) 1 = Ret None).
Proof. exact (find_api_char star_eq star_match star_eq_ok). Qed.
Print Assumptions c40_strstar_char_complete.
(** longer needles: an occurrence is found if no earlier byte matches the needle's first
    byte.  Missing: occurrences behind a partial match, see the refutation. *)
Theorem c40_strstr_uc_complete_partial :
  forall p m q rest n0 nd ndrest, nz (p ++ m ++ q) -> Forall (fun c => ~ uc_match c n0) p -> Forall2 uc_match m (n0 :: nd) ->
    strstr_uc ((p ++ m ++ q) ++ 0 :: rest) ((n0 :: nd) ++ ndrest) (zlen (n0 :: nd)) = Ret (Some (zlen p)).
Proof. exact (find_api_first uc_eq uc_match uc_eq_ok). Qed.
Print Assumptions c40_strstr_uc_complete_partial.
Theorem c40_strstar_complete_partial :
  forall p m q rest n0 nd ndrest, nz (p ++ m ++ q) -> Forall (fun c => ~ star_match c n0) p -> Forall2 star_match m (n0 :: nd) ->
    strstar ((p ++ m ++ q) ++ 0 :: rest) ((n0 :: nd) ++ ndrest) (zlen (n0 :: nd)) = Ret (Some (zlen p)).
Proof. exact (find_api_first star_eq star_match star_eq_ok). Qed.
Print Assumptions c40_strstar_complete_partial.
(** "AAB" contains "AB", neither search finds it *)
Theorem c40_every_occurrence_found_refuted :
  exists text nd k, nz text /\ occurs uc_match text nd k /\ occurs star_match text nd k /\
    strstr_uc (text ++ [0]) (nd ++ [0]) (zlen nd) = Ret None /\ strstar (text ++ [0]) (nd ++ [0]) (zlen nd) = Ret None.
Proof.
  exists [65; 65; 66], [65; 66], 1. split; [repeat constructor; discriminate|].
  repeat split; try (exists [65], [65; 66], []; repeat split; repeat constructor); exists [65], [65; 66], []; repeat split; repeat constructor.
Qed.
Print Assumptions c40_every_occurrence_found_refuted.
(** "xAb" for "AB"; "xab" for "*b" *)
Example c40_uc : strstr_uc [120; 65; 98; 0] [65; 66] 2 = Ret (Some 1). Proof. reflexivity. Qed.
Example c40_star : strstar [120; 97; 98; 0] [97; 42; 42] 2 = Ret (Some 1). Proof. reflexivity. Qed.

(** C41: a result of findword is an occurrence followed by the end or a separator; on
    the left there is the start of the text, a separator, or an occurrence that starts
    one byte earlier and was rejected. *)
Theorem c41_findword_partial :
  forall text rest nd ndrest, nz text ->
    exists r, findword (text ++ 0 :: rest) (nd ++ ndrest) (zlen nd) = Ret r /\
      match r with
      | None => True
      | Some k => occurs uc_match text nd k /\ ends_word text (k + zlen nd) /\ (starts_word text k \/ occurs uc_match text nd (k - 1))
      end.
Proof. exact findword_ok. Qed.
Print Assumptions c41_findword_partial.
(** a word with two different bytes cannot occur at adjacent positions: whole words only *)
Theorem c41_findword_whole_word :
  forall text rest nd ndrest a b, nz text -> In a nd -> In b nd -> a <> b ->
    exists r, findword (text ++ 0 :: rest) (nd ++ ndrest) (zlen nd) = Ret r /\
      match r with None => True | Some k => occurs uc_match text nd k /\ starts_word text k /\ ends_word text (k + zlen nd) end.
Proof. exact findword_whole. Qed.
Print Assumptions c41_findword_whole_word.
(** "aa" does not contain the word "A", findword reports it at 1 *)
Theorem c41_findword_whole_word_refuted :
  exists text nd k, nz text /\ findword (text ++ [0]) (nd ++ [0]) (zlen nd) = Ret (Some k) /\ ~ starts_word text k.
Proof.
  exists [97; 97], [65], 1. split; [repeat constructor; discriminate|]. split; [reflexivity|].
  intros [H|[p [c [q [H1 [H2 H3]]]]]]; [lia|]. destruct p as [|? p]; [|rewrite zlen_cons in H2; pose proof (zlen_nonneg p); lia].
  injection H1 as <- _. unfold sep_before in H3. cbn [In] in H3. lia.
Qed.
Print Assumptions c41_findword_whole_word_refuted.
(** "abc,ab cd" has the word AB at 4 *)
Example c41_example : findword [97; 98; 99; 44; 97; 98; 32; 99; 100; 0] [65; 66] 2 = Ret (Some 4). Proof. reflexivity. Qed.

(** C42 *)
Theorem c42_character_classes :
  forall c,
  (isUpper c = 1 <-> upper_letter c) /\ (isLower c = 1 <-> lower_letter c) /\ (isNumber c = 1 <-> decimal_digit c) /\
  (isLetter c = 1 <-> upper_letter c \/ lower_letter c) /\ (isAlpha c = 1 <-> upper_letter c \/ lower_letter c \/ decimal_digit c).
Proof. exact classes. Qed.
Print Assumptions c42_character_classes.
Theorem c42_makelower_makeupper :
  forall c, byte c ->
    makelower c = (if (65 <=? c) && (c <=? 90) then c + 32 else c) /\ makeupper c = to_upper c /\
    (lower_letter c -> makelower (makeupper c) = c) /\ (upper_letter c -> makeupper (makelower c) = c).
Proof. exact makes. Qed.
Print Assumptions c42_makelower_makeupper.
Theorem c42_hexval :
  forall c, (forall v, hexdigit c v -> hexval c = v) /\ ((forall v, ~ hexdigit c v) -> hexval c = 0).
Proof. exact hexval_ok. Qed.
Print Assumptions c42_hexval.
Theorem c42_containsChar :
  forall s rest what, nz s -> what <> 0 ->
    (containsChar (s ++ 0 :: rest) what = Ret 1 /\ In what s) \/ (containsChar (s ++ 0 :: rest) what = Ret 0 /\ ~ In what s).
Proof. exact containsChar_ok. Qed.
Print Assumptions c42_containsChar.
Theorem c42_containsChar_nul : forall s rest, nz s -> containsChar (s ++ 0 :: rest) 0 = Ret 0.
Proof. exact containsChar_nul. Qed.
Print Assumptions c42_containsChar_nul.
Theorem c42_strends :
  forall a b ra rb, nz a -> nz b ->
    (strends (a ++ 0 :: ra) (b ++ 0 :: rb) = Ret 1 /\ exists p, a = p ++ b) \/
    (strends (a ++ 0 :: ra) (b ++ 0 :: rb) = Ret 0 /\ ~ exists p, a = p ++ b).
Proof. exact strends_ok. Qed.
Print Assumptions c42_strends.
Example c42_example : strends [97; 98; 99; 0] [98; 99; 0] = Ret 1 /\ strends [98; 99; 0] [97; 98; 99; 0] = Ret 0 /\ hexdigit 98 11.
Proof. repeat split; try reflexivity; try lia. left. reflexivity. Qed.

(** C73, strdup_n: with the length of the string a terminated copy; with less it copies
    byte len of the source, whatever it is, as the last byte *)
Theorem c73_strdup_n_whole :
  forall str rest, nz str -> str <> [] -> strdup_n true (str ++ 0 :: rest) (zlen str) = Ret (Some (str ++ [0])).
Proof. exact strdup_n_ok. Qed.
Print Assumptions c73_strdup_n_whole.
Theorem c73_strdup_n_copies :
  forall ok str n, 0 < n < zlen str -> strdup_n ok str n = Ret (if ok then Some (ztake n str ++ [znth 0 str n]) else None).
Proof. exact strdup_n_copies. Qed.
Print Assumptions c73_strdup_n_copies.
(** "abc" with len 2: the copy "abc" of three bytes has no NUL *)
Theorem c73_strdup_n_terminates_refuted :
  exists str n copy, nz str /\ 0 < n <= zlen str /\ strdup_n true (str ++ [0]) n = Ret (Some copy) /\ ~ In 0 copy.
Proof.
  exists [97; 98; 99], 2, [97; 98; 99]. split; [repeat constructor; discriminate|]. split; [cbv; split; [reflexivity|discriminate]|].
  split; [reflexivity|]. cbn [In]. lia.
Qed.
Print Assumptions c73_strdup_n_terminates_refuted.
