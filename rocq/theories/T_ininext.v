(** C102: showing a value of every section of one name (tests/iniparser_test_nextsection.c). *)
From Verif Require Import Base M_stringptr D_stringptr S_stringptr P_stringptr M_spfile P_spfile M_ini S_ini M_iniuse S_iniuse M_ininext S_ininext P_ininext.

(** C102: whatever the file: the loop ends, and for each section of the name up to the first one without
    lines the first value of the key is shown, unless it is empty *)
Theorem c102_next_section_lines junk rs content name nt key kt dest cbuf fuel : content <> [] -> bytes content -> zlen content < 2 ^ 62 -> Forall moves rs -> zlen content <= zlen rs ->
  holds name nt -> holds key kt -> zlen cbuf = 32 -> zlen dest = 4096 -> zlen content + 2 <= Z.of_nat fuel ->
  exists ls, ls <> [] /\ join [10] ls = content /\ Forall (fun l => ~ In 10 l) ls /\
  next_main fuel (zlen content) true (Some junk) rs content name key dest cbuf =
    Ret (map (pair 1) (flat_map (fun s => shown (first_value kt (lines_of ls s))) (until_empty (sections nt 0 ls)))).
Proof. exact (next_main_ok junk rs content name nt key kt dest cbuf fuel). Qed.
Print Assumptions c102_next_section_lines.
(** C102: a file written from sections and entries: the values come in the order of the sections, up to the first
    section of that name without entries *)
Theorem c102_next_section_partial junk rs f name nt key kt dest cbuf fuel : f <> [] -> ini_ok f -> bytes (ini_text f) -> zlen (ini_text f) < 2 ^ 62 -> Forall moves rs -> zlen (ini_text f) <= zlen rs ->
  holds name nt -> holds key kt -> ~ In 93 nt -> ~ In 61 kt -> zlen cbuf = 32 -> zlen dest = 4096 -> zlen (ini_text f) + 2 <= Z.of_nat fuel ->
  next_main fuel (zlen (ini_text f)) true (Some junk) rs (ini_text f) name key dest cbuf = Ret (map (pair 1) (flat_map (fun s => shown (value_for kt (snd s))) (before_empty (named nt f)))).
Proof. exact (next_data junk rs f name nt key kt dest cbuf fuel). Qed.
Print Assumptions c102_next_section_partial.
Lemma before_full g : Forall (fun s : list Z * list (list Z * list Z) => snd s <> []) g -> before_empty g = g.
Proof. induction 1 as [|s g H F IH]; [reflexivity|]. cbn [before_empty]. destruct (snd s); [congruence|]. now rewrite IH. Qed.
(** C102: if no section of that name is empty, every one of them is shown *)
Theorem c102_next_section_all junk rs f name nt key kt dest cbuf fuel : f <> [] -> ini_ok f -> bytes (ini_text f) -> zlen (ini_text f) < 2 ^ 62 -> Forall moves rs -> zlen (ini_text f) <= zlen rs ->
  holds name nt -> holds key kt -> ~ In 93 nt -> ~ In 61 kt -> zlen cbuf = 32 -> zlen dest = 4096 -> zlen (ini_text f) + 2 <= Z.of_nat fuel ->
  (forall s, In s f -> fst s = nt -> snd s <> []) ->
  next_main fuel (zlen (ini_text f)) true (Some junk) rs (ini_text f) name key dest cbuf = Ret (map (pair 1) (flat_map (fun s => shown (value_for kt (snd s))) (named nt f))).
Proof.
  intros Nf Hf Bt L M R Hn Hk Nn Nk C D Fu All. rewrite (next_data junk rs f name nt key kt dest cbuf fuel) by assumption. do 3 f_equal. apply before_full, Forall_forall. intros s I. apply filter_In in I as [I E]. apply All; [exact I|]. unfold eqs in E. destruct (list_eq_dec _ _ _); congruence.
Qed.
Print Assumptions c102_next_section_all.
Definition of_text (t : list Z) : sp := mkSp (t ++ [0]) 0 (zlen t).
(** "section", "value" *)
Definition c102_name : list Z := [115; 101; 99; 116; 105; 111; 110].
Definition c102_key : list Z := [118; 97; 108; 117; 101].
Definition run (fuel : nat) (f : ini_data) :=
  next_main fuel (zlen (ini_text f)) true (Some (fun _ => 7)) (repeat (Xfer 100) 200) (ini_text f) (of_text c102_name) (of_text c102_key) (zrepeat 3 4096) (zrepeat 5 32).
(** C102: an empty section ends the loop as if it were the last: the section behind it has a value, which is
    not shown *)
Theorem c102_empty_section_refuted :
  let f := [(c102_name, []); (c102_name, [(c102_key, [49])])] in
  ini_ok f /\ flat_map (fun s => shown (value_for c102_key (snd s))) (named c102_name f) <> [] /\ run 60 f = Ret [].
Proof.
  cbv zeta. split; [|split; [discriminate|vm_compute; reflexivity]]. unfold ini_ok, name_ok, key_ok, ini_lines, c102_name, c102_key. split; cbn [flat_map section_lines app map entry_text fst snd hd];
    repeat first [apply Forall_cons | apply Forall_nil | split]; cbn [In fst snd hd app]; lia.
Qed.
Print Assumptions c102_empty_section_refuted.
(** C102: without the file, or with an empty one, the program splits NULL *)
Theorem c102_missing_file_refuted fuel size opened mal rs content name key dest cbuf : size = 0 \/ opened = false -> next_main fuel size opened mal rs content name key dest cbuf = UB.
Proof. intros [-> | ->]; [reflexivity|]. unfold next_main, stringptr_fromfile. destruct (size =? 0); reflexivity. Qed.
Print Assumptions c102_missing_file_refuted.
(** [section] value=1 x=2 [other] value=3 [section] y=4 [section] value=NUL5 value=6 [section] *)
Definition c102_file : ini_data :=
  [(c102_name, [(c102_key, [49]); ([120], [50])]); ([111], [(c102_key, [51])]); (c102_name, [([121], [52])]); (c102_name, [(c102_key, [0; 53]); (c102_key, [54])]); (c102_name, [])].
Example c102_ex : run 200 c102_file = Ret [(1, shown_text ++ [49; 10]); (1, shown_text ++ [10])] /\
  flat_map (fun s => shown (value_for c102_key (snd s))) (before_empty (named c102_name c102_file)) = [shown_text ++ [49; 10]; shown_text ++ [10]].
Proof. split; vm_compute; reflexivity. Qed.
Example c102_ex_ok : ini_ok c102_file.
Proof.
  unfold ini_ok, c102_file, name_ok, key_ok, ini_lines, c102_name, c102_key. split; cbn [flat_map section_lines app map entry_text fst snd hd];
    repeat first [apply Forall_cons | apply Forall_nil | split]; cbn [In fst snd hd app]; lia.
Qed.
