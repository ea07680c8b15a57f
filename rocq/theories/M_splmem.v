(** Model of src/stringptrlist/stringptr_splitc.c, stringptr_splits.c and stringptr_replace.c where memory for
    the list of pieces runs out.  M_spl.v has the same loops with a list that always grows.

    The list is an sblist (src/sblist/sblist.c), used through its specification: the stored entries and the room.
    The outcomes of its allocations are a script: false = the call fails; an empty script = every further call
    succeeds.  The room stays below 2^64, since there is at most one piece per byte and one more. *)
From Verif Require Import Base M_stringptr M_spl.

(** include/sblist.h 24-30: the items (count is their number) and capa; blockitems is 16 *)
Record pl := mkPl { pitems : list (Z * Z); pcapa : Z }.
Definition next (sc : list bool) : bool * list bool := match sc with [] => (true, []) | b :: sc => (b, sc) end.
(** include/stringptrlist.h 23 with src/sblist/sblist.c 58-73: sblist_add; the result is ignored by the callers *)
Definition pl_add (sc : list bool) (l : pl) (e : Z * Z) : list bool * pl :=
  if zlen (pitems l) =? pcapa l then
    let '(ok, sc) := next sc in
    if ok : bool then (sc, mkPl (pitems l ++ [e]) (pcapa l + 16)) else (sc, l)
  else (sc, mkPl (pitems l ++ [e]) (pcapa l)).

(** stringptr_splitc.c 13-19 *)
Fixpoint splitc_mem_loop (fuel : nat) (sc : list bool) (l : pl) (buf : sp) (delim i linestart : Z) : out (list bool * pl * sp) :=
  match fuel with
  | O => Fuel
  | S fuel =>
      if i <=? sz buf then
        let* hit := (if i =? sz buf then Ret true
                     else let* c := zread (sb buf) (so buf + i) in Ret (s8 c =? delim)) in
        if hit : bool then
          let '(sc, l) := pl_add sc l (so buf + linestart, u64 (i - linestart)) in
          let* buf := put0 buf i in
          splitc_mem_loop fuel sc l buf delim (u64 (i + 1)) (u64 (i + 1))
        else splitc_mem_loop fuel sc l buf delim (u64 (i + 1)) linestart
      else Ret (sc, l, buf)
  end.
(** stringptr_splitc.c 8-21; None = NULL: sblist_new fails *)
Definition splitc_mem (sc : list bool) (buf : sp) (delim : Z) : out (list bool * option pl * sp) :=
  let '(ok, sc) := next sc in
  if ok : bool then
    let* (sc, l, buf) := splitc_mem_loop (S (S (Z.to_nat (sz buf)))) sc (mkPl [] 0) buf delim 0 0 in Ret (sc, Some l, buf)
  else Ret (sc, None, buf).
(** stringptr_splits.c 14-22 *)
Fixpoint splits_mem_loop (fuel : nat) (sc : list bool) (l : pl) (buf delim : sp) (i linestart : Z) : out (list bool * pl * sp) :=
  match fuel with
  | O => Fuel
  | S fuel =>
      if i <=? sz buf then
        let* hit := (if i =? sz buf then Ret true
                     else let* r := stringptr_here buf i delim in Ret (negb (r =? 0))) in
        if hit : bool then
          let '(sc, l) := pl_add sc l (so buf + linestart, u64 (i - linestart)) in
          let* buf := put0 buf i in
          splits_mem_loop fuel sc l buf delim (u64 (i + sz delim)) (u64 (i + sz delim))
        else splits_mem_loop fuel sc l buf delim (u64 (i + 1)) linestart
      else Ret (sc, l, buf)
  end.
(** stringptr_splits.c 9-24 *)
Definition splits_mem (fuel : nat) (sc : list bool) (buf delim : sp) : out (list bool * option pl * sp) :=
  let '(ok, sc) := next sc in
  if ok : bool then
    let* (sc, l, buf) := splits_mem_loop fuel sc (mkPl [] 0) buf delim 0 0 in Ret (sc, Some l, buf)
  else Ret (sc, None, buf).
(** stringptr_replace.c 3-27: the size is computed from the number of stored pieces in size_t; mal: the malloc of the
    result, as in M_stringptr.v *)
Definition replace_mem (fuel : nat) (sc : list bool) (mal : option (Z -> Z)) (buf what whit : sp) : out (option sp * sp) :=
  let* (sc, l, buf) := splits_mem fuel sc buf what in
  match l with
  | None => Ret (None, buf)
  | Some l =>
      let n := u64 (zlen (pitems l) - 1) in
      let* r := stringptr_new mal (u64 (u64 (sz buf - u64 (n * sz what)) + u64 (n * sz whit))) in
      match r with
      | None => Ret (None, buf)
      | Some r =>
          let* b := replace_loop (pitems l) (sb buf) whit (sb r) (so r) 0 in
          Ret (Some (mkSp b (so r) (sz r)), buf)
      end
  end.
