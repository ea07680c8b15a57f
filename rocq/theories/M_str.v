(** Model of src/strlib: character classes, case conversion, containsChar, strends,
    strstr_uc, strstar, findword, strdup_n.

    A char* argument that is only dereferenced is its byte value (0..255; every class
    is ASCII, so the sign of char does not matter).  Strings are buffers with offsets.
    NULL arguments (immediate return) are not modelled. *)
From Verif Require Import Base Cstr.

(** include/strswitch.h 4-16: the case lists *)
Definition UC : list Z := [65; 66; 67; 68; 69; 70; 71; 72; 73; 74; 75; 76; 77; 78; 79; 80; 81; 82; 83; 84; 85; 86; 87; 88; 89; 90].
Definition LC : list Z := [97; 98; 99; 100; 101; 102; 103; 104; 105; 106; 107; 108; 109; 110; 111; 112; 113; 114; 115; 116; 117; 118; 119; 120; 121; 122].
Definition NUMS : list Z := [48; 49; 50; 51; 52; 53; 54; 55; 56; 57].
(** switch(c) { case L: return 1; default: return 0; } *)
Definition switch1 (L : list Z) (c : Z) : Z := if existsb (fun x => x =? c) L then 1 else 0.

(** src/strlib/isAlpha.c 3-10 *)
Definition isAlpha (c : Z) : Z := switch1 (UC ++ LC ++ NUMS) c.
(** src/strlib/isLetter.c 3-10 *)
Definition isLetter (c : Z) : Z := switch1 (UC ++ LC) c.
(** src/strlib/isLower.c 3-10 *)
Definition isLower (c : Z) : Z := switch1 LC c.
(** src/strlib/isUpper.c 3-10 *)
Definition isUpper (c : Z) : Z := switch1 UC c.
(** src/strlib/isNumber.c 3-10 *)
Definition isNumber (c : Z) : Z := switch1 NUMS c.
(** src/strlib/makelower.c 5-12 *)
Definition makelower (c : Z) : Z := if switch1 UC c =? 1 then u8 (c + 32) else c.
(** src/strlib/makeupper.c 5-12 *)
Definition makeupper (c : Z) : Z := if switch1 LC c =? 1 then u8 (c - 32) else c.

(** src/strlib/containsChar.c 6-9 *)
Fixpoint containsChar_loop (fuel : nat) (s : list Z) (c what : Z) : out Z :=
  match fuel with
  | O => Fuel
  | S fuel =>
      let* x := zread s c in
      if x =? 0 then Ret 0 else if x =? what then Ret 1 else containsChar_loop fuel s (c + 1) what
  end.
(** src/strlib/containsChar.c 3-11 *)
Definition containsChar (s : list Z) (what : Z) : out Z := containsChar_loop (S (length s)) s 0 what.

(** libc strcmp(a + i, b + j) == 0 *)
Fixpoint streq_at (fuel : nat) (a b : list Z) (i j : Z) : out bool :=
  match fuel with
  | O => Fuel
  | S fuel =>
      let* x := zread a i in
      let* y := zread b j in
      if x =? y then if x =? 0 then Ret true else streq_at fuel a b (i + 1) (j + 1) else Ret false
  end.
(** src/strlib/strends.c 2-5 *)
Definition strends (what with_ : list Z) : out Z :=
  let* la := strlen what 0 in
  let* li := strlen with_ 0 in
  if li <=? la then
    let* e := streq_at (S (length what)) what with_ (la - li) 0 in Ret (if e then 1 else 0)
  else Ret 0.

(** src/strlib/strstr_uc.c 14-16: comparison of one haystack byte with one needle byte *)
Definition uc_eq (h n : Z) : bool := (if isLower h =? 1 then h - 32 else h) =? n.
(** src/strlib/strstar.c 11 *)
Definition star_eq (h n : Z) : bool := (n =? 42) || (h =? n).

(** src/strlib/strstr_uc.c 12-18 = strstar.c 9-13 up to the comparison [eq]: n more needle
    bytes.  Result: None = end of haystack, Some true = all matched, Some false = goto
    next; with the haystack position *)
Fixpoint find_inner (eq : Z -> Z -> bool) (n : nat) (hay needle : list Z) (h i : Z)
  : out (option bool * Z) :=
  match n with
  | O => Ret (Some true, h)
  | S n =>
      let* c := zread hay h in
      if c =? 0 then Ret (None, h)
      else
        let* d := zread needle i in
        if eq c d then find_inner eq n hay needle (h + 1) (i + 1) else Ret (Some false, h)
  end.
(** src/strlib/strstr_uc.c 10-23 = strstar.c 7-18 *)
Fixpoint find_loop (eq : Z -> Z -> bool) (fuel : nat) (hay needle : list Z) (needlesize h : Z)
  : out (option Z) :=
  match fuel with
  | O => Fuel
  | S fuel =>
      let* c := zread hay h in
      if c =? 0 then Ret None
      else
        let save := h in
        let* (r, h) := find_inner eq (Z.to_nat needlesize) hay needle h 0 in
        match r with
        | None => Ret None
        | Some true => Ret (Some save)
        | Some false => find_loop eq fuel hay needle needlesize (h + 1)
        end
  end.
(** search from offset [from]; src/strlib/strstr_uc.c 5-24 *)
Definition strstr_uc_from (hay needle : list Z) (needlesize from : Z) : out (option Z) :=
  if needlesize =? 0 then Ret None else find_loop uc_eq (S (length hay)) hay needle needlesize from.
Definition strstr_uc (hay needle : list Z) (needlesize : Z) := strstr_uc_from hay needle needlesize 0.
(** src/strlib/strstar.c 3-19 *)
Definition strstar (hay needle : list Z) (needlesize : Z) : out (option Z) :=
  if needlesize =? 0 then Ret None else find_loop star_eq (S (length hay)) hay needle needlesize 0.

(** src/strlib/findword.c 3, 5-12: space tab LF : , . ; - *)
Definition isLeadingWhitespace (c : Z) : bool := existsb (fun x => x =? c) [32; 9; 10; 58; 44; 46; 59; 45].
(** src/strlib/findword.c 14-21 *)
Definition isTrailingWhitespace (c : Z) : bool := isLeadingWhitespace c || (c =? 13).
(** src/strlib/findword.c 25-30; buf and res are offsets into text *)
Fixpoint findword_loop (fuel : nat) (text word : list Z) (wlen buf res : Z) : out (option Z) :=
  match fuel with
  | O => Fuel
  | S fuel =>
      let* c := zread text res in
      if c =? 0 then Ret None
      else
        let* r := strstr_uc_from text word wlen buf in
        match r with
        | None => Ret None
        | Some res =>
            let* a := (if res =? buf then Ret true
                       else let* p := zread text (res - 1) in Ret (isLeadingWhitespace p)) in
            let* b := (if a then let* e := zread text (res + wlen) in
                                 Ret ((e =? 0) || isTrailingWhitespace e)
                       else Ret false) in
            if b then Ret (Some res) else findword_loop fuel text word wlen (res + 1) res
        end
  end.
(** src/strlib/findword.c 23-32 *)
Definition findword (text word : list Z) (wlen : Z) : out (option Z) :=
  findword_loop (S (length text)) text word wlen 0 0.

(** src/strlib/strdup_n.c 5-11: malloc'd block content [blk] of len + 1 bytes, None =
    malloc failed; result None = NULL *)
Definition strdup_n (ok : bool) (str : list Z) (len : Z) : out (option (list Z)) :=
  if len =? 0 then Ret None
  else if ok then let* b := zreads str 0 (len + 1) in Ret (Some b)
  else Ret None.
