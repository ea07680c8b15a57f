(** C89: an ini file from its text to a value (examples/iniparser_test.c). *)
From Verif Require Import Base M_stringptr D_stringptr P_stringptr M_ini M_iniuse S_iniuse P_iniuse.

(** C89: whatever sections and entries the text was written from, looking up a name and a key gives the value
    of the first such entry in the first such section, followed by a NUL *)
Theorem c89_lookup junk text name key f nt kt : holds text (ini_text f) -> bytes (ini_text f) -> ini_ok f -> holds name nt -> holds key kt -> ~ In 93 nt -> ~ In 61 kt -> zlen (ini_text f) < 2 ^ 62 ->
  exists r, ini_lookup (Some junk) text name key = Ret r /\
  match ini_value f nt kt with
  | Some v => exists s, r = Some s /\ holds s v /\ zread (sb s) (so s + sz s) = Ret 0
  | None => r = None
  end.
Proof. exact (ini_ok_lookup junk text name key f nt kt). Qed.
Print Assumptions c89_lookup.
Definition of_text (t : list Z) : sp := mkSp (t ++ [0]) 0 (zlen t).
(** C89: nothing like that holds of names with a bracket or keys with an equals sign: for the file "[a]b]", "k=x=y"
    asking for a and k finds x=y, asking for a]b and k=x finds y *)
Theorem c89_ambiguous_refuted :
  let f := [([97; 93; 98], [([107], [120; 61; 121])])] in
  let ask n k := (let* r := ini_lookup (Some (fun _ => 7)) (of_text (ini_text f)) (of_text n) (of_text k) in
                  match r with None => Ret None | Some s => let* t := zreads (sb s) (so s) (sz s) in Ret (Some t) end) in
  ini_value f [97] [107] = None /\ ask [97] [107] = Ret (Some [120; 61; 121]) /\
  ini_value f [97; 93; 98] [107; 61; 120] = None /\ ask [97; 93; 98] [107; 61; 120] = Ret (Some [121]).
Proof. repeat split; vm_compute; reflexivity. Qed.
Print Assumptions c89_ambiguous_refuted.
(** C89: without memory for the copy the program writes through NULL *)
Theorem c89_no_memory_refuted text name key : ini_lookup None text name key = UB.
Proof. reflexivity. Qed.
Print Assumptions c89_no_memory_refuted.
(** iniparser_test.c: [main] foo=bar bar=baz [section1] baz=blah blah=foo *)
Definition c89_file : ini_data :=
  [([109; 97; 105; 110], [([102; 111; 111], [98; 97; 114]); ([98; 97; 114], [98; 97; 122])]);
   ([115; 49], [([98; 97; 122], [98; 108; 97; 104]); ([98; 108; 97; 104], [102; 111; 111])])].
Example c89_ex : ini_ok c89_file /\ ini_value c89_file [109; 97; 105; 110] [98; 97; 114] = Some [98; 97; 122] /\ ini_value c89_file [109; 97; 105; 110] [98; 97; 122] = None /\
  (let* r := ini_lookup (Some (fun _ => 7)) (of_text (ini_text c89_file)) (of_text [115; 49]) (of_text [98; 108; 97; 104]) in
   match r with None => UB | Some s => zreads (sb s) (so s) (sz s + 1) end) = Ret [102; 111; 111; 0].
Proof.
  split; [|repeat split; vm_compute; reflexivity]. unfold ini_ok, c89_file, name_ok, key_ok, ini_lines. split; cbn [flat_map section_lines app map entry_text fst snd hd];
    repeat first [apply Forall_cons | apply Forall_nil | split]; cbn [In fst snd hd app]; lia.
Qed.
