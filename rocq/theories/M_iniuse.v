(** Model of the use of src/iniparser in examples/iniparser_test.c: a text is copied, split into lines, a
    section is looked up and a value in it. *)
From Verif Require Import Base M_stringptr M_spl M_ini.

(** the entries of the stringptrlist point into the split buffer *)
Definition entries (buf : sp) (l : list (Z * Z)) : list sp := map (fun e => mkSp (sb buf) (fst e) (snd e)) l.
(** iniparser_test.c 10-15 (and 20-21): stringptr_copy, stringptr_linesplit (include/stringptrlist.h 49),
    iniparser_get_section, iniparser_getvalue.  mal: the answer of malloc to stringptr_copy; the list
    takes every line.  None: no value *)
Definition ini_lookup (mal : option (Z -> Z)) (text name key : sp) : out (option sp) :=
  let* ini := stringptr_copy mal text in
  let* (l, buf) := stringptr_splitc ini 10 in
  let lines := entries buf l in
  let* sec := iniparser_get_section lines name in
  iniparser_getvalue lines sec key.
