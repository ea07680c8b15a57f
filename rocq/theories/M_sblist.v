(** Model of src/sblist/*.c and include/sblist.h.

    Simplifications, valid for the whole file:
    - the list's block is a byte list [mem]; items==NULL (sblist_clear) is the
      empty block;
    - a pointer into the block is its byte offset; reading an item through it
      is [zreads mem off itemsize];
    - malloc(sizeof(sblist)) of the struct itself is not modelled (a NULL
      list is the caller's concern);
    - realloc's outcome is an argument: None = failure, Some junk = success with
      [junk i] the initial value of fresh byte i. *)
From Verif Require Import Base.

(** include/sblist.h 24-30 *)
Record sbl := mkSbl {
  isz : Z;       (* itemsize *)
  bits : Z;      (* blockitems *)
  cnt : Z;       (* count *)
  capa : Z;      (* capa *)
  mem : list Z   (* items *)
}.

(** outcome of one realloc call *)
Definition alloc := option (Z -> Z).

(** fresh memory: n bytes starting at index i *)
Definition fresh (junk : Z -> Z) (i n : Z) : list Z :=
  map (fun k => junk (i + Z.of_nat k)) (seq 0 (Z.to_nat n)).

(** realloc(block, n) when it succeeds: old contents up to the smaller size,
    then arbitrary bytes (C11 7.22.3.5) *)
Definition resized (b : list Z) (n : Z) (junk : Z -> Z) : list Z :=
  ztake n b ++ fresh junk (zlen b) (n - zlen b).

(** src/sblist/sblist.c 21-27 (and 15-19: sblist_clear); itemsize 0 with
    blockitems 0 divides by zero *)
Definition sblist_init (itemsize blockitems : Z) : out sbl :=
  if blockitems =? 0 then
    if itemsize =? 0 then UB
    else Ret (mkSbl itemsize (4096 / itemsize) 0 0 [])
  else Ret (mkSbl itemsize blockitems 0 0 []).

(** src/sblist/sblist.c 43-45: size_t multiplication *)
Definition item_off (l : sbl) (idx : Z) : Z := u64 (idx * isz l).

(** src/sblist/sblist.c 47-50: None = NULL *)
Definition sblist_get (l : sbl) (item : Z) : option Z :=
  if item <? cnt l then Some (item_off l item) else None.

(** src/sblist/sblist.c 52-56 *)
Definition sblist_set (l : sbl) (item : list Z) (pos : Z) : out (Z * sbl) :=
  if cnt l <=? pos then Ret (0, l)
  else
    let* m := zwrites (mem l) (item_off l pos) item in
    Ret (1, mkSbl (isz l) (bits l) (cnt l) (capa l) m).

(** src/sblist/sblist.c 58-67 *)
Definition sblist_grow_if_needed (al : alloc) (l : sbl) : Z * sbl :=
  if cnt l =? capa l then
    match al with
    | None => (0, l)
    | Some junk =>
        (1, mkSbl (isz l) (bits l) (cnt l) (u64 (capa l + bits l))
              (resized (mem l) (u64 (u64 (capa l + bits l) * isz l)) junk))
    end
  else (1, l).

(** count++ *)
Definition inc_count (l : sbl) : sbl :=
  mkSbl (isz l) (bits l) (u64 (cnt l + 1)) (capa l) (mem l).

(** src/sblist/sblist.c 69-73 *)
Definition sblist_add (al : alloc) (l : sbl) (item : list Z) : out (Z * sbl) :=
  let '(ok, l) := sblist_grow_if_needed al l in
  if ok =? 0 then Ret (0, l)
  else
    let l := inc_count l in
    sblist_set l item (u64 (cnt l - 1)).

(** src/sblist/sblist_addi.c 3-8 *)
Definition sblist_addi (al : alloc) (l : sbl) (item : list Z) : out (Z * sbl) :=
  let '(ok, l) := sblist_grow_if_needed al l in
  if ok =? 0 then Ret (SIZE_MAX, l)
  else
    let l := inc_count l in
    let* (_, l) := sblist_set l item (u64 (cnt l - 1)) in
    Ret (u64 (cnt l - 1), l).

(** src/sblist/sblist_insert.c 4-9 *)
Definition sblist_insert (al : alloc) (l : sbl) (item : list Z) (pos : Z)
  : out (Z * sbl) :=
  let '(ok, l) := sblist_grow_if_needed al l in
  if ok =? 0 then Ret (0, l)
  else
    let* m := zmove (mem l) (item_off l (u64 (pos + 1))) (item_off l pos)
                    (u64 (u64 (cnt l - pos) * isz l)) in
    let l := inc_count (mkSbl (isz l) (bits l) (cnt l) (capa l) m) in
    sblist_set l item pos.

(** src/sblist/sblist_delete.c 4-9 *)
Definition sblist_delete (l : sbl) (item : Z) : out sbl :=
  if negb (cnt l =? 0) && (item <? cnt l) then
    let* m := zmove (mem l) (item_off l item) (item_off l (u64 (item + 1)))
                    (u64 (u64 (cnt l - u64 (item + 1)) * isz l)) in
    Ret (mkSbl (isz l) (bits l) (u64 (cnt l - 1)) (capa l) m)
  else Ret l.

(** src/sblist/sblist_pop.c 2-10; the returned pointer is an offset *)
Definition sblist_pop (l : sbl) : out (option Z * sbl) :=
  let len := cnt l in
  if 0 <? len then
    let x := sblist_get l (len - 1) in
    let* l := sblist_delete l (len - 1) in
    Ret (x, l)
  else Ret (None, l).

(** compar(item, sblist_get(l, x)): the comparator reads a whole item; a NULL
    pivot is undefined.  The comparator is a pure function of both items. *)
Definition cmp_at (cmp : list Z -> list Z -> Z) (l : sbl) (item : list Z) (x : Z)
  : out Z :=
  match sblist_get l x with
  | None => UB
  | Some off => let* it := zreads (mem l) off (isz l) in Ret (cmp item it)
  end.

(** src/sblist/sblist_bsearch.c 4-12 (loop); -1L converted to size_t *)
Fixpoint bsearch_loop (fuel : nat) (cmp : list Z -> list Z -> Z) (l : sbl)
    (item : list Z) (base nel : Z) : out Z :=
  match fuel with
  | O => Fuel
  | S fuel =>
      if 0 <? nel then
        let x := u64 (base + nel / 2) in
        let* c := cmp_at cmp l item x in
        if c <? 0 then bsearch_loop fuel cmp l item base (nel / 2)
        else if 0 <? c then
          bsearch_loop fuel cmp l item (u64 (x + 1)) (u64 (nel - (nel / 2 + 1)))
        else Ret x
      else Ret SIZE_MAX
  end.

(** src/sblist/sblist_bsearch.c 2-14 *)
Definition sblist_bsearch cmp (l : sbl) (item : list Z) : out Z :=
  bsearch_loop (S (Z.to_nat (cnt l))) cmp l item 0 (cnt l).

(** src/sblist/sblist_bsearch_r.c 2-14: the context is passed through *)
Definition cmp_at_r {C} (cmp : list Z -> list Z -> C -> Z) (ctx : C) (l : sbl)
    (item : list Z) (x : Z) : out Z :=
  match sblist_get l x with
  | None => UB
  | Some off => let* it := zreads (mem l) off (isz l) in Ret (cmp item it ctx)
  end.

(** src/sblist/sblist_bsearch_r.c 4-12 *)
Fixpoint bsearch_r_loop {C} (fuel : nat) (cmp : list Z -> list Z -> C -> Z) (ctx : C)
    (l : sbl) (item : list Z) (base nel : Z) : out Z :=
  match fuel with
  | O => Fuel
  | S fuel =>
      if 0 <? nel then
        let x := u64 (base + nel / 2) in
        let* c := cmp_at_r cmp ctx l item x in
        if c <? 0 then bsearch_r_loop fuel cmp ctx l item base (nel / 2)
        else if 0 <? c then
          bsearch_r_loop fuel cmp ctx l item (u64 (x + 1)) (u64 (nel - (nel / 2 + 1)))
        else Ret x
      else Ret SIZE_MAX
  end.

(** src/sblist/sblist_bsearch_r.c 2-14 *)
Definition sblist_bsearch_r {C} cmp (ctx : C) (l : sbl) (item : list Z) : out Z :=
  bsearch_r_loop (S (Z.to_nat (cnt l))) cmp ctx l item 0 (cnt l).

(** src/sblist/sblist_insert_sorted.c 10-24: the loop up to label ins; returns
    the position handed to sblist_insert *)
Fixpoint sorted_pos_loop (fuel : nat) (cmp : list Z -> list Z -> Z) (l : sbl)
    (o : list Z) (hi lo : Z) : out Z :=
  match fuel with
  | O => Fuel
  | S fuel =>
      let c := u64 (hi + u64 (lo - hi) / 2) in
      let* r := cmp_at cmp l o c in
      if hi =? lo then Ret (if 0 <? r then u64 (lo + 1) else lo)
      else
        let '(hi, lo) :=
          if r <? 0 then (hi, if c =? 0 then 0 else u64 (c - 1))
          else if 0 <? r then (u64 (c + 1), lo)
          else (c, c) in
        let hi := if lo <? hi then lo else hi in
        sorted_pos_loop fuel cmp l o hi lo
  end.

(** src/sblist/sblist_insert_sorted.c 4-25 *)
Definition sblist_insert_sorted (al : alloc) cmp (l : sbl) (o : list Z) : out (Z * sbl) :=
  let* lo := (if cnt l =? 0 then Ret 0
              else sorted_pos_loop (S (Z.to_nat (cnt l))) cmp l o 0 (u64 (cnt l - 1))) in
  let* (ok, l) := sblist_insert al l o lo in
  if ok =? 0 then Ret (SIZE_MAX, l) else Ret (lo, l).

(** src/sblist/sblist_insert_sorted_r.c 10-24 *)
Fixpoint sorted_pos_r_loop {C} (fuel : nat) (cmp : list Z -> list Z -> C -> Z) (ctx : C)
    (l : sbl) (o : list Z) (hi lo : Z) : out Z :=
  match fuel with
  | O => Fuel
  | S fuel =>
      let c := u64 (hi + u64 (lo - hi) / 2) in
      let* r := cmp_at_r cmp ctx l o c in
      if hi =? lo then Ret (if 0 <? r then u64 (lo + 1) else lo)
      else
        let '(hi, lo) :=
          if r <? 0 then (hi, if c =? 0 then 0 else u64 (c - 1))
          else if 0 <? r then (u64 (c + 1), lo)
          else (c, c) in
        let hi := if lo <? hi then lo else hi in
        sorted_pos_r_loop fuel cmp ctx l o hi lo
  end.

(** src/sblist/sblist_insert_sorted_r.c 4-25 *)
Definition sblist_insert_sorted_r {C} (al : alloc) cmp (ctx : C) (l : sbl) (o : list Z)
  : out (Z * sbl) :=
  let* lo := (if cnt l =? 0 then Ret 0
              else sorted_pos_r_loop (S (Z.to_nat (cnt l))) cmp ctx l o 0 (u64 (cnt l - 1))) in
  let* (ok, l) := sblist_insert al l o lo in
  if ok =? 0 then Ret (SIZE_MAX, l) else Ret (lo, l).

(** src/sblist/sblist_new_from_data.c 4-12 (malloc of the struct succeeds) *)
Definition sblist_new_from_data (itemsize : Z) (data : list Z) (datalen : Z) : out sbl :=
  if itemsize =? 0 then UB
  else Ret (mkSbl itemsize 0 (datalen / itemsize) (datalen / itemsize) data).

(** include/sblist.h 52 *)
Definition sblist_set_blockitems (l : sbl) (n : Z) : sbl :=
  mkSbl (isz l) n (cnt l) (capa l) (mem l).

(** src/sblist/sblist_free_values.c 4-8: the sequence of addresses given to
    free(), the block being at address [base]; NULL cannot occur as i < count *)
Definition sblist_free_values (base : Z) (l : sbl) : list Z :=
  map (fun i => match sblist_get l (Z.of_nat i) with
                | Some off => base + off
                | None => 0
                end)
      (seq 0 (Z.to_nat (cnt l))).

(** src/sblist/sblist.c 29-34 with 15-19 *)
Definition sblist_free_items (l : sbl) : sbl := mkSbl (isz l) (bits l) 0 0 [].

(** include/sblist.h 119-124: sblist_iter_counter / sblist_iter_counter2 with a
    body that only reads the item; result = items seen, in order *)
Fixpoint iter_loop (fuel : nat) (l : sbl) (it : Z) : out (list (list Z)) :=
  match fuel with
  | O => Fuel
  | S fuel =>
      let p := sblist_get l it in
      if it <? cnt l then
        match p with
        | None => UB
        | Some off =>
            let* x := zreads (mem l) off (isz l) in
            let* r := iter_loop fuel l (u64 (it + 1)) in
            Ret (x :: r)
        end
      else Ret []
  end.
Definition sblist_iter (l : sbl) : out (list (list Z)) :=
  iter_loop (S (Z.to_nat (cnt l))) l 0.

(** include/sblist.h 128-129: sblist_iter_counter2s; ITER is ssize_t (converted
    to size_t for sblist_get); the body looks at the item, may delete it
    (sblist_delete(LIST, ITER); ITER--), driven by a stateful decision [dec] *)
Fixpoint iter_del_loop {S} (fuel : nat) (dec : S -> list Z -> bool * S) (s : S)
    (l : sbl) (it : Z) : out (list (list Z) * sbl * S) :=
  match fuel with
  | O => Fuel
  | Datatypes.S fuel =>
      let p := sblist_get l (u64 it) in
      if it <? s64 (cnt l) then
        match p with
        | None => UB
        | Some off =>
            let* x := zreads (mem l) off (isz l) in
            let '(d, s) := dec s x in
            let* (l, it) := (if d then let* l := sblist_delete l (u64 it) in Ret (l, it - 1)
                             else Ret (l, it)) in
            let* (seen, l, s) := iter_del_loop fuel dec s l (it + 1) in
            Ret (x :: seen, l, s)
        end
      else Ret ([], l, s)
  end.
Definition sblist_iter_del {S} (dec : S -> list Z -> bool * S) (s : S) (l : sbl) :=
  iter_del_loop (Datatypes.S (Z.to_nat (cnt l))) dec s l 0.
