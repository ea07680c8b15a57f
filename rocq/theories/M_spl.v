(** Model of src/stringptrlist/*.c (without the file functions) and src/kvlist/kvlist.c.

    A stringptrlist/kvlist is an sblist, used here through its specification C01/C02: a
    mathematical list.  stringptr_splitc/_splits ignore the result of stringptrlist_add;
    the model returns the entries handed to stringptrlist_add in order (a failing add
    drops its entry and changes nothing else).  Entries pointing into the split buffer are
    (offset, size). *)
From Verif Require Import Base M_stringptr.

Definition put0 (s : sp) (i : Z) : out sp :=
  let* b := zwrite (sb s) (so s + i) 0 in Ret (mkSp b (so s) (sz s)).
(** src/stringptrlist/stringptr_splitc.c 13-19; acc is reversed *)
Fixpoint splitc_loop (fuel : nat) (buf : sp) (delim i linestart : Z) (acc : list (Z * Z)) : out (list (Z * Z) * sp) :=
  match fuel with
  | O => Fuel
  | S fuel =>
      if i <=? sz buf then
        let* hit := (if i =? sz buf then Ret true
                     else let* c := zread (sb buf) (so buf + i) in Ret (s8 c =? delim)) in
        if hit : bool then
          let acc := (so buf + linestart, u64 (i - linestart)) :: acc in
          let* buf := put0 buf i in
          splitc_loop fuel buf delim (u64 (i + 1)) (u64 (i + 1)) acc
        else splitc_loop fuel buf delim (u64 (i + 1)) linestart acc
      else Ret (rev acc, buf)
  end.
(** src/stringptrlist/stringptr_splitc.c 8-21 *)
Definition stringptr_splitc (buf : sp) (delim : Z) : out (list (Z * Z) * sp) :=
  splitc_loop (S (S (Z.to_nat (sz buf)))) buf delim 0 0 [].

(** src/stringptrlist/stringptr_splits.c 14-22; acc is reversed *)
Fixpoint splits_loop (fuel : nat) (buf delim : sp) (i linestart : Z) (acc : list (Z * Z)) : out (list (Z * Z) * sp) :=
  match fuel with
  | O => Fuel
  | S fuel =>
      if i <=? sz buf then
        let* hit := (if i =? sz buf then Ret true
                     else let* r := stringptr_here buf i delim in Ret (negb (r =? 0))) in
        if hit : bool then
          let acc := (so buf + linestart, u64 (i - linestart)) :: acc in
          let* buf := put0 buf i in
          splits_loop fuel buf delim (u64 (i + sz delim)) (u64 (i + sz delim)) acc
        else splits_loop fuel buf delim (u64 (i + 1)) linestart acc
      else Ret (rev acc, buf)
  end.
(** src/stringptrlist/stringptr_splits.c 9-24; [fuel] bounds the loop iterations looked at *)
Definition stringptr_splits (fuel : nat) (buf delim : sp) : out (list (Z * Z) * sp) := splits_loop fuel buf delim 0 0 [].

(** src/stringptrlist/stringptr_replace.c 12-23; src: the split buffer *)
Fixpoint replace_loop (l : list (Z * Z)) (src : list Z) (whit : sp) (res : list Z) (ro w : Z) : out (list Z) :=
  match l with
  | [] => Ret res
  | (p, n) :: l =>
      let* (res, w) := (if n =? 0 then Ret (res, w)
                        else let* res := memcpy res (ro + w) src p n in Ret (res, u64 (w + n))) in
      let* (res, w) := (if match l with [] => true | _ => false end || (sz whit =? 0) then Ret (res, w)
                        else let* res := memcpy res (ro + w) (sb whit) (so whit) (sz whit) in Ret (res, u64 (w + sz whit))) in
      replace_loop l src whit res ro w
  end.
(** src/stringptrlist/stringptr_replace.c 3-27; result and the split buffer *)
Definition stringptr_replace (fuel : nat) (mal : option (Z -> Z)) (buf what whit : sp) : out (option sp * sp) :=
  let* (l, buf) := stringptr_splits fuel buf what in
  let n := zlen l - 1 in
  let* r := stringptr_new mal (u64 (u64 (sz buf - u64 (n * sz what)) + u64 (n * sz whit))) in
  match r with
  | None => Ret (None, buf)
  | Some r =>
      let* b := replace_loop l (sb buf) whit (sb r) (so r) 0 in
      Ret (Some (mkSp b (so r) (sz r)), buf)
  end.

(** src/stringptrlist/stringptrlist_find.c 9-13 *)
Fixpoint spl_find_from (i : Z) (l : list sp) (what : sp) : out Z :=
  match l with
  | [] => Ret (-1)
  | s :: l =>
      let* e := stringptr_eq (Some what) (Some s) in
      if negb (e =? 0) then Ret i else spl_find_from (i + 1) l what
  end.
(** src/stringptrlist/stringptrlist_find.c 5-16 *)
Definition stringptrlist_find (l : list sp) (what : sp) : out Z := spl_find_from 0 l what.
(** src/stringptrlist/stringptrlist_contains.c 4-6 *)
Definition stringptrlist_contains (l : list sp) (what : sp) : out Z :=
  let* r := stringptrlist_find l what in Ret (if r =? -1 then 0 else 1).
(** src/kvlist/kvlist.c 11-19: result and *value if set *)
Fixpoint kv_find {V} (l : list (sp * V)) (what : sp) : out (Z * option V) :=
  match l with
  | [] => Ret (0, None)
  | (k, v) :: l =>
      let* e := stringptr_eq (Some what) (Some k) in
      if negb (e =? 0) then Ret (1, Some v) else kv_find l what
  end.

(** src/stringptrlist/stringptrlist_tostring.c 7-9, _dos.c 7-9: e = 1 or 2 *)
Definition tostring_req (e : Z) (l : list sp) : Z := fold_left (fun r s => u64 (r + u64 (sz s + e))) l 0.
(** src/stringptrlist/stringptrlist_tostring.c 13-19, _dos.c 13-21: eol = LF or CR LF *)
Fixpoint put_bytes (b : list Z) (o : Z) (l : list Z) : out (list Z * Z) :=
  match l with
  | [] => Ret (b, o)
  | c :: l => let* b := zwrite b o c in put_bytes b (o + 1) l
  end.
Fixpoint tostring_loop (eol : list Z) (l : list sp) (b : list Z) (o : Z) : out (list Z) :=
  match l with
  | [] => Ret b
  | s :: l =>
      let* b := (if sz s =? 0 then Ret b else memcpy b o (sb s) (so s) (sz s)) in
      let* (b, o) := put_bytes b (o + sz s) eol in
      tostring_loop eol l b o
  end.
Definition tostring_eol (eol : list Z) (mal : option (Z -> Z)) (l : list sp) : out (option sp) :=
  let* r := stringptr_new mal (tostring_req (zlen eol) l) in
  match r with
  | None => Ret None
  | Some r => let* b := tostring_loop eol l (sb r) (so r) in Ret (Some (mkSp b (so r) (sz r)))
  end.
(** src/stringptrlist/stringptrlist_tostring.c 3-21 *)
Definition stringptrlist_tostring := tostring_eol [10].
(** src/stringptrlist/stringptrlist_tostring_dos.c 3-23 *)
Definition stringptrlist_tostring_dos := tostring_eol [13; 10].
