(** Model of tests/iniparser_test_nextsection.c: a file is read and split into lines; the loop goes from
    section to section of one name and prints a value of each. *)
From Verif Require Import Base M_stringptr M_spl M_spfile M_ini M_iniuse M_format M_fmtuse.

(** the text "value of section: %s", LF (line 16) *)
Definition next_fmt : list Z :=
  [118; 97; 108; 117; 101; 32; 111; 102; 32; 115; 101; 99; 116; 105; 111; 110; 58; 32; 37; 115; 10; 0].
(** lines 14-16: getvalue in the section and printing, dest and cbuf as for ulz_printf.  getvalue sets the
    size to 0 when there is no value (iniparser.c 63), so x is never read uninitialised *)
Definition next_print (lines : list sp) (key : sp) (sec : ini_section) (dest cbuf : list Z) : out (list (Z * list Z)) :=
  let* v := iniparser_getvalue lines sec key in
  match v with
  | None => Ret []
  | Some x =>
      if sz x =? 0 then Ret []
      else let* w := ulz_printf next_fmt [VStr (Some (zdrop (so x) (sb x)))] dest cbuf in
           Ret match w with Some w => [w] | None => [] end
  end.
(** lines 12-17: the loop; the result is what is given to write(2), in order *)
Fixpoint next_loop (fuel : nat) (lines : list sp) (name key : sp) (sec : ini_section) (dest cbuf : list Z) : out (list (Z * list Z)) :=
  match fuel with
  | O => Fuel
  | S fuel =>
      let* sec := iniparser_get_next_section lines name sec in
      if snd sec =? 0 then Ret []
      else
        let* w := next_print lines key sec dest cbuf in
        let* r := next_loop fuel lines name key sec dest cbuf in
        Ret (w ++ r)
  end.
(** lines 7-17.  size, opened, mal, rs, content: as for stringptr_fromfile; the list takes every line.
    name and key: the constants "section" and "value" of the program.  Not modelled: freeing the list and the
    text (lines 18-19) *)
Definition next_main (fuel : nat) (size : Z) (opened : bool) (mal : option (Z -> Z)) (rs : list io) (content : list Z) (name key : sp) (dest cbuf : list Z) : out (list (Z * list Z)) :=
  let* fc := stringptr_fromfile size opened mal rs content in
  match fc with
  | None => UB
  | Some fc =>
      let* (l, buf) := stringptr_splitc fc 10 in
      next_loop fuel (entries buf l) name key (0, 0) dest cbuf
  end.
