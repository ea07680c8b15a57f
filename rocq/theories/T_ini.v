(** C58, C59: ini files. *)
From Verif Require Import Base M_stringptr D_stringptr P_stringptr M_ini S_ini P_ini.

(** C58: the first section of that name, {0,0} if there is none *)
Theorem c58_section name nt ini ls : holds name nt -> Forall2 holds ini ls ->
  iniparser_get_section ini name = Ret (hd (0, 0) (sections nt 0 ls)).
Proof. intros Hn Hi. pose proof (zlen_nonneg ls). exact (section_at name nt Hn ini ls Hi 0 ltac:(lia)). Qed.
(** C58: get_next_section goes from each section to the next of that name, and after the last one
    gives {0,0} *)
Theorem c58_next name nt ini ls k : holds name nt -> Forall2 holds ini ls -> zlen ls < 2 ^ 63 -> (k < length (sections nt 0 ls))%nat ->
  iniparser_get_next_section ini name (nth k (sections nt 0 ls) (0, 0)) = Ret (nth (S k) (sections nt 0 ls) (0, 0)).
Proof. exact (next_ok name nt ini ls k). Qed.
(** C58: sections lists exactly the lines after a header with that name; none starts at 0 *)
Theorem c58_headers nt ls s : (exists c, In (s, c) (sections nt 0 ls)) <-> 1 <= s <= zlen ls /\ header nt (znth [] ls (s - 1)) = true.
Proof. rewrite (sections_mem nt ls 0 s). replace (s - 1 - 0) with (s - 1) by lia. rewrite !Z.add_0_l. reflexivity. Qed.
(** C59: getvalue_at finds the first line from startline to the end of the section that says key=v; the
    value is the end of that line, so that it is NUL-terminated if the lines are *)
Theorem c59_value_at key kt ini ls sect start : holds key kt -> Forall2 holds ini ls -> 0 <= start -> 0 <= fst sect + snd sect < 2 ^ 64 ->
  exists r, iniparser_getvalue_at ini sect key start = Ret r /\
  match r with
  | Some (n, v) => start <= n < fst sect + snd sect /\ n < zlen ls /\ (exists vt, assigns kt (znth [] ls n) vt /\ holds v vt /\ tail_of (znth (mkSp [] 0 0) ini n) v) /\
                   forall n' vt, start <= n' < n -> ~ assigns kt (znth [] ls n') vt
  | None => forall n vt, start <= n < fst sect + snd sect -> n < zlen ls -> ~ assigns kt (znth [] ls n) vt
  end.
Proof. intros Hk Hi S M. unfold iniparser_getvalue_at. cbv zeta. rewrite u64_id by lia. apply (value_loop_ok key kt ini ls Hk Hi); lia. Qed.
(** C59: getvalue searches the section from its first line *)
Theorem c59_value key kt ini ls sect : holds key kt -> Forall2 holds ini ls -> 0 <= fst sect -> 0 <= fst sect + snd sect < 2 ^ 64 ->
  exists r, iniparser_getvalue ini sect key = Ret r /\
  match r with
  | Some v => exists n vt, fst sect <= n < fst sect + snd sect /\ n < zlen ls /\ assigns kt (znth [] ls n) vt /\ holds v vt /\ tail_of (znth (mkSp [] 0 0) ini n) v /\
                           forall n' vt, fst sect <= n' < n -> ~ assigns kt (znth [] ls n') vt
  | None => forall n vt, fst sect <= n < fst sect + snd sect -> n < zlen ls -> ~ assigns kt (znth [] ls n) vt
  end.
Proof.
  intros Hk Hi S M. unfold iniparser_getvalue. destruct (c59_value_at key kt ini ls sect (fst sect) Hk Hi S M) as (r & -> & R). cbn [bind]. eexists. split; [reflexivity|]. destruct r as [[n v]|]; cbn [option_map snd].
  - destruct R as (A & B & (vt & C & D & T) & E). exists n, vt. auto 8.
  - exact R.
Qed.
(** C59: getvalue with the file as its section searches all the lines *)
Theorem c59_file_as_section key kt ini ls : holds key kt -> Forall2 holds ini ls -> zlen ls < 2 ^ 64 ->
  exists r, iniparser_getvalue ini (iniparser_file_as_section ini) key = Ret r /\
  match r with
  | Some v => exists n vt, 0 <= n < zlen ls /\ assigns kt (znth [] ls n) vt /\ holds v vt /\ tail_of (znth (mkSp [] 0 0) ini n) v /\
                           forall n' vt, 0 <= n' < n -> ~ assigns kt (znth [] ls n') vt
  | None => forall n vt, 0 <= n < zlen ls -> ~ assigns kt (znth [] ls n) vt
  end.
Proof.
  intros Hk Hi L. assert (E : zlen ini = zlen ls) by (clear L; induction Hi as [|x y a b _ _ IH]; [reflexivity|rewrite !zlen_cons; lia]). pose proof (zlen_nonneg ls).
  destruct (c59_value key kt ini ls (iniparser_file_as_section ini) Hk Hi) as (r & -> & R); cbn [iniparser_file_as_section fst snd] in *; rewrite ?E in *; try lia. exists r. split; [reflexivity|]. destruct r as [v|].
  - destruct R as (n & vt & A & B & R). exists n, vt. split; [lia|exact R].
  - intros n vt N. apply R; lia.
Qed.
(** C59: count_sections counts the lines [text] followed by blanks only *)
Theorem c59_count ini ls : Forall2 holds ini ls -> zlen ls < 2 ^ 64 -> exists n, count titled ls n /\ iniparser_count_sections ini = Ret n.
Proof. intros Hi L. destruct (count_loop_ok ini ls 0 Hi ltac:(lia) ltac:(lia)) as (n & C & E). exists n. now split. Qed.
(** C59: these are not all headers: "[a]x" and "[]" are headers for get_section but not counted *)
Definition line_of (t : list Z) : sp := mkSp t 0 (zlen t).
Theorem c59_count_refuted :
  let ini := map line_of [[91; 97; 93; 120]; [91; 93]] in
  iniparser_get_section ini (line_of [97]) = Ret (1, 0) /\ iniparser_get_section ini (line_of []) = Ret (2, 0) /\ iniparser_count_sections ini = Ret 0.
Proof. repeat split. Qed.
Print Assumptions c58_section.
Print Assumptions c58_next.
Print Assumptions c58_headers.
Print Assumptions c59_value_at.
Print Assumptions c59_value.
Print Assumptions c59_file_as_section.
Print Assumptions c59_count.
Print Assumptions c59_count_refuted.
(** x=0, [a], k=1, kk=2, [b], [a] , k=3 *)
Definition c58_file := map line_of [[120; 61; 48]; [91; 97; 93]; [107; 61; 49]; [107; 107; 61; 50]; [91; 98; 93]; [91; 97; 93; 32]; [107; 61; 51]].
Example c58_ex : iniparser_get_section c58_file (line_of [97]) = Ret (2, 2) /\ iniparser_get_next_section c58_file (line_of [97]) (2, 2) = Ret (6, 1) /\
  iniparser_get_next_section c58_file (line_of [97]) (6, 1) = Ret (0, 0) /\ iniparser_get_section c58_file (line_of [98]) = Ret (5, 0) /\
  sections [97] 0 (map sb c58_file) = [(2, 2); (6, 1)].
Proof. repeat split. Qed.
Example c59_ex : iniparser_getvalue c58_file (2, 2) (line_of [107; 107]) = Ret (Some (mkSp [107; 107; 61; 50] 3 1)) /\ iniparser_getvalue c58_file (2, 2) (line_of [120]) = Ret None /\
  iniparser_getvalue_at c58_file (6, 1) (line_of [107]) 6 = Ret (Some (6, mkSp [107; 61; 51] 2 1)) /\ iniparser_count_sections c58_file = Ret 3 /\
  iniparser_getvalue c58_file (iniparser_file_as_section c58_file) (line_of [120]) = Ret (Some (mkSp [120; 61; 48] 2 1)).
Proof. repeat split. Qed.
