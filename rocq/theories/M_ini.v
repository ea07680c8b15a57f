(** Model of src/iniparser.  inifile: the lines of the stringptrlist (a list of stringptr). *)
From Verif Require Import Base M_stringptr.

(** include/iniparser.h 16-19 *)
Definition ini_section : Type := Z * Z.  (* startline, linecount *)
(** ptr[i] of a stringptr *)
Definition at_ (s : sp) (i : Z) : out Z := zread (sb s) (so s + i).
(** && whose operands can be undefined *)
Definition and_then (a b : out bool) : out bool := let* x := a in if x then b else Ret false.
(** iniparser.c 19-22 without the test of startline *)
Definition is_header (line name : sp) : out bool :=
  and_then (Ret (u64 (sz name + 2) <=? sz line)) (
  and_then (let* c := at_ line 0 in Ret (c =? 91)) (
  and_then (let* c := at_ line (1 + sz name) in Ret (c =? 93))
           (memcmp0 (sb line) (so line + 1) (sb name) (so name) (sz name)))).
(** iniparser.c 15-33 *)
Fixpoint section_loop (fuel : nat) (ini : list sp) (name : sp) (i start : Z) : out ini_section :=
  match fuel with
  | O => Fuel
  | S fuel =>
      if i <? zlen ini then
        let* line := zread ini i in
        let* h := and_then (Ret (start =? 0)) (is_header line name) in
        if h then section_loop fuel ini name (i + 1) (i + 1)
        else
          let* o := and_then (Ret (negb (start =? 0) && negb (sz line =? 0))) (let* c := at_ line 0 in Ret (c =? 91)) in
          if o then Ret (start, i - start) else section_loop fuel ini name (i + 1) start
      else
        (* linecount is still 0 here *)
        Ret (start, if negb (start =? 0) then zlen ini - start else 0)
  end.
(** iniparser.c 11-34 *)
Definition iniparser_get_section_at (ini : list sp) (name : sp) (startline : Z) : out ini_section :=
  section_loop (S (length ini)) ini name startline 0.
(** iniparser.c 36-38 *)
Definition iniparser_get_section (ini : list sp) (name : sp) : out ini_section := iniparser_get_section_at ini name 0.
(** iniparser.c 40-42 *)
Definition iniparser_get_next_section (ini : list sp) (name : sp) (prev : ini_section) : out ini_section :=
  iniparser_get_section_at ini name (u64 (fst prev + snd prev)).
(** iniparser.c 44-49 *)
Definition iniparser_file_as_section (ini : list sp) : ini_section := (0, zlen ini).
(** stringptrlist_get: NULL outside the list (C01) *)
Definition get_line (ini : list sp) (i : Z) : option sp := if (0 <=? i) && (i <? zlen ini) then Some (znth (mkSp [] 0 0) ini i) else None.
(** iniparser.c 55-65; the result is the line's number and the value, None for -1 and NULL *)
Fixpoint value_loop (fuel : nat) (ini : list sp) (maxline : Z) (key : sp) (i : Z) : out (option (Z * sp)) :=
  match fuel with
  | O => Fuel
  | S fuel =>
      if i <? maxline then
        match get_line ini i with
        | None => value_loop fuel ini maxline key (i + 1)
        | Some line =>
            let* m := and_then (Ret (sz key <? sz line)) (
                      and_then (let* c := at_ line (sz key) in Ret (c =? 61))
                               (memcmp0 (sb line) (so line) (sb key) (so key) (sz key))) in
            if m then Ret (Some (i, mkSp (sb line) (so line + sz key + 1) (u64 (sz line - u64 (sz key + 1)))))
            else value_loop fuel ini maxline key (i + 1)
        end
      else Ret None
  end.
(** iniparser.c 51-66 *)
Definition iniparser_getvalue_at (ini : list sp) (section : ini_section) (key : sp) (startline : Z) : out (option (Z * sp)) :=
  let maxline := u64 (fst section + snd section) in
  value_loop (S (Z.to_nat (maxline - startline))) ini maxline key startline.
(** iniparser.c 68-70 *)
Definition iniparser_getvalue (ini : list sp) (section : ini_section) (key : sp) : out (option sp) :=
  let* r := iniparser_getvalue_at ini section key (fst section) in Ret (option_map snd r).
(** iniparser_count_sections.c 3-5 *)
Definition iswhitespace (c : Z) : bool := (c =? 9) || (c =? 32).
(** iniparser_count_sections.c 7-11 *)
Fixpoint lastnonws (fuel : nat) (s : sp) (res : Z) : out Z :=
  match fuel with
  | O => Fuel
  | S fuel => let* w := and_then (Ret (negb (res =? 0))) (let* c := at_ s (res - 1) in Ret (iswhitespace c)) in
              if w then lastnonws fuel s (res - 1) else Ret res
  end.
(** iniparser_count_sections.c 13-27 *)
Fixpoint count_loop (ini : list sp) (result : Z) : out Z :=
  match ini with
  | [] => Ret result
  | line :: ini =>
      let* h := and_then (Ret (3 <=? sz line)) (let* c := at_ line 0 in Ret (c =? 91)) in
      if h then
        let* n := lastnonws (S (Z.to_nat (sz line))) line (sz line) in
        let* e := and_then (Ret (negb (n =? 0))) (let* c := at_ line (n - 1) in Ret (c =? 93)) in
        count_loop ini (if e then u64 (result + 1) else result)
      else count_loop ini result
  end.
Definition iniparser_count_sections (ini : list sp) : out Z := count_loop ini 0.
