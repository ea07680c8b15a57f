(** Model of examples/iniparser_test.c and tests/iniparser_test_nextsection.c where memory for the list of lines runs
    out.  M_iniuse.v and M_ininext.v have the same programs with a list that takes every line.

    sc: the outcomes of the allocations of the list, as in M_splmem.v.  A list that could not be made is NULL, and
    the first thing the ini functions do is to read its count (iniparser.c 15, include/sblist.h 32). *)
From Verif Require Import Base M_stringptr M_spl M_splmem M_spfile M_ini M_iniuse M_ininext.

(** iniparser_test.c 10-15 *)
Definition ini_lookup_mem (sc : list bool) (mal : option (Z -> Z)) (text name key : sp) : out (option sp) :=
  let* ini := stringptr_copy mal text in
  let* (_, l, buf) := splitc_mem sc ini 10 in
  match l with
  | None => UB
  | Some l =>
      let lines := entries buf (pitems l) in
      let* sec := iniparser_get_section lines name in
      iniparser_getvalue lines sec key
  end.
(** iniparser_test_nextsection.c 7-17 *)
Definition next_main_mem (fuel : nat) (sc : list bool) (size : Z) (opened : bool) (mal : option (Z -> Z)) (rs : list io) (content : list Z) (name key : sp) (dest cbuf : list Z) : out (list (Z * list Z)) :=
  let* fc := stringptr_fromfile size opened mal rs content in
  match fc with
  | None => UB
  | Some fc =>
      let* (_, l, buf) := splitc_mem sc fc 10 in
      match l with
      | None => UB
      | Some l => next_loop fuel (entries buf (pitems l)) name key (0, 0) dest cbuf
      end
  end.
