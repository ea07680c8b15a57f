(** Which heap blocks the containers allocate and free (the contents and the arithmetic of the sizes are
    in M_sblist, M_hashlist, M_tglist, M_bmap, M_spl; here a list's items are a Gallina list and a list
    that is full asks for a new block).  Sizes given to realloc are not 0. *)
From Verif Require Import Base M_heap.

Section S.
Context {A : Type}.
(** sblist.h 24-30: the struct's own address (0: not on the heap), items, capa, blockitems; count = length of hits *)
Record hsb := mkHsb { hself : Z; hbuf : Z; hcapa : Z; hblk : Z; hits : list A }.
(** sblist.c 9-13, 15-19, 21-27; blockitems <> 0 *)
Definition sb_new (h : heap) (blockitems : Z) : option hsb * heap :=
  let (p, h) := halloc h in
  if p =? NULL then (None, h) else (Some (mkHsb p NULL 0 blockitems []), h).
Definition sb_init (blockitems : Z) : hsb := mkHsb NULL NULL 0 blockitems [].
(** sblist.c 29-34 *)
Definition sb_free_items (h : heap) (l : hsb) : out (heap * hsb) :=
  let* h := (if hbuf l =? NULL then Ret h else hfree h (hbuf l)) in
  Ret (h, mkHsb (hself l) NULL 0 (hblk l) []).
(** sblist.c 36-41, l not NULL *)
Definition sb_free (h : heap) (l : hsb) : out heap :=
  let* (h, l) := sb_free_items h l in hfree h (hself l).
(** sblist.c 58-67 *)
Definition sb_grow (h : heap) (l : hsb) : out (bool * heap * hsb) :=
  if zlen (hits l) =? hcapa l then
    let* (t, h) := hrealloc h (hbuf l) in
    if t =? NULL then Ret (false, h, l) else Ret (true, h, mkHsb (hself l) t (hcapa l + hblk l) (hblk l) (hits l))
  else Ret (true, h, l).
Definition with_items (l : hsb) (xs : list A) : hsb := mkHsb (hself l) (hbuf l) (hcapa l) (hblk l) xs.
(** sblist.c 69-73 *)
Definition sb_add (h : heap) (l : hsb) (x : A) : out (bool * heap * hsb) :=
  let* (ok, h, l) := sb_grow h l in
  if ok : bool then Ret (true, h, with_items l (hits l ++ [x])) else Ret (false, h, l).
(** sblist_insert.c 4-9 *)
Definition sb_insert (h : heap) (l : hsb) (x : A) (pos : Z) : out (bool * heap * hsb) :=
  let* (ok, h, l) := sb_grow h l in
  if ok : bool then Ret (true, h, with_items l (ztake pos (hits l) ++ x :: zdrop pos (hits l))) else Ret (false, h, l).
(** sblist_delete.c 4-9 *)
Definition sb_delete (l : hsb) (i : Z) : hsb :=
  if i <? zlen (hits l) then with_items l (ztake i (hits l) ++ zdrop (i + 1) (hits l)) else l.
(** sblist_pop.c 2-10 *)
Definition sb_pop (l : hsb) : hsb :=
  if 0 <? zlen (hits l) then sb_delete l (zlen (hits l) - 1) else l.
(** sblist.c 52-56 *)
Definition sb_set (l : hsb) (x : A) (i : Z) : hsb :=
  if zlen (hits l) <=? i then l else with_items l (ztake i (hits l) ++ x :: zdrop (i + 1) (hits l)).

(** tglist.h 50-59: items, capa; count = length of tits; the struct is the caller's *)
Record htg := mkHtg { tbuf : Z; tcapa : Z; tits : list A }.
Definition tg_init : htg := mkHtg NULL 0 [].
(** tglist.h 159-170 *)
Definition tg_grow (h : heap) (l : htg) : out (bool * heap * htg) :=
  if zlen (tits l) =? tcapa l then
    let newsz := if tcapa l =? 0 then 4 else tcapa l * 2 in
    let* (t, h) := hrealloc h (tbuf l) in
    if t =? NULL then Ret (false, h, l) else Ret (true, h, mkHtg t newsz (tits l))
  else Ret (true, h, l).
(** tglist.h 106-114, 125-139 *)
Definition tg_insert (h : heap) (l : htg) (x : A) (pos : Z) : out (bool * heap * htg) :=
  let* (ok, h, l) := tg_grow h l in
  if ok : bool then Ret (true, h, mkHtg (tbuf l) (tcapa l) (ztake pos (tits l) ++ x :: zdrop pos (tits l))) else Ret (false, h, l).
Definition tg_add (h : heap) (l : htg) (x : A) : out (bool * heap * htg) := tg_insert h l x (zlen (tits l)).
(** tglist.h 120-122 *)
Definition tg_delete (l : htg) (pos : Z) : htg := mkHtg (tbuf l) (tcapa l) (ztake pos (tits l) ++ zdrop (pos + 1) (tits l)).
(** tglist.h 98-99 *)
Definition tg_set (l : htg) (x : A) (pos : Z) : htg := mkHtg (tbuf l) (tcapa l) (ztake pos (tits l) ++ x :: zdrop (pos + 1) (tits l)).
(** tglist.h 82 *)
Definition tg_free_items (h : heap) (l : htg) : out heap := hfree h (tbuf l).
End S.
Arguments hsb : clear implicits.
Arguments htg : clear implicits.

(** free called for each element, in this order *)
Fixpoint free_all (h : heap) (ps : list Z) : out heap :=
  match ps with [] => Ret h | p :: ps => let* h := hfree h p in free_all h ps end.
(** tglist.h 90-93: from the last to the first, for items of the size of a pointer *)
Definition tg_free_values (h : heap) (l : htg Z) : out (heap * htg Z) :=
  let* h := free_all h (rev (tits l)) in Ret (h, mkHtg (tbuf l) (tcapa l) []).

(** hashlist.h 11-15 *)
Record hhl A := mkHhl { lself : Z; ltab : Z; lbkt : list (option (hsb A)) }.
Arguments mkHhl {A}. Arguments lself {A}. Arguments ltab {A}. Arguments lbkt {A}.
(** hashlist.c 4-15 *)
Definition hl_new {A} (h : heap) (bucketcount : Z) : out (option (hhl A) * heap) :=
  let (p, h) := halloc h in
  if p =? NULL then Ret (None, h)
  else
    let (t, h) := halloc h in
    if t =? NULL then let* h := hfree h p in Ret (None, h)
    else Ret (Some (mkHhl p t (zrepeat None bucketcount)), h).
(** hashlist.c 18-25 *)
Definition hl_add {A} (h : heap) (l : hhl A) (hash : Z) (x : A) : out (Z * heap * hhl A) :=
  if zlen (lbkt l) =? 0 then UB
  else
    let i := hash mod zlen (lbkt l) in
    let* b := zread (lbkt l) i in
    let (b, h) := match b with Some b => (Some b, h) | None => sb_new h 8 end in
    match b with
    | None => Ret (-1, h, l)
    | Some b =>
        let* (ok, h, b) := sb_add h b x in
        let* bk := zwrite (lbkt l) i (Some b) in
        Ret (if ok : bool then 0 else 1, h, mkHhl (lself l) (ltab l) bk)
    end.
(** hashlist.c 32-41, h not NULL *)
Fixpoint free_buckets {A} (h : heap) (bs : list (option (hsb A))) : out heap :=
  match bs with
  | [] => Ret h
  | None :: bs => free_buckets h bs
  | Some b :: bs => let* h := sb_free h b in free_buckets h bs
  end.
Definition hl_free {A} (h : heap) (l : hhl A) : out heap :=
  let* h := free_buckets h (lbkt l) in
  let* h := hfree h (ltab l) in hfree h (lself l).

(** A stringptrlist: its items are (ptr, size); ptr is an address or NULL. *)
Definition hspl := hsb (Z * Z).
(** stringptr_strdup.c 5-12: NULL when malloc fails *)
Definition h_strdup (h : heap) : Z * heap := halloc h.
(** stringptrlist_add_strdup.c 3-7 *)
Definition spl_add_strdup (h : heap) (l : hspl) (size : Z) : out (bool * heap * hspl) :=
  let (nu, h) := h_strdup h in
  if nu =? NULL then Ret (false, h, l) else sb_add h l (nu, size).
(** stringptrlist_dup_entries.c 3-14: the items before i are done; the rest is xs *)
Fixpoint dup_loop (h : heap) (done xs : list (Z * Z)) : Z * heap * list (Z * Z) :=
  match xs with
  | [] => (-1, h, done)
  | (p, n) :: xs =>
      let (d, h) := h_strdup h in
      if d =? NULL then (zlen done, h, done ++ (p, n) :: xs) else dup_loop h (done ++ [(d, n)]) xs
  end.
Definition spl_dup_entries (h : heap) (l : hspl) : Z * heap * hspl :=
  let '(r, h, xs) := dup_loop h [] (hits l) in (r, h, with_items l xs).
(** stringptrlist_freestrings.c 3-12 *)
Fixpoint freestrings_loop (h : heap) (done xs : list (Z * Z)) : out (heap * list (Z * Z)) :=
  match xs with
  | [] => Ret (h, done)
  | (p, n) :: xs =>
      let* h := (if p =? NULL then Ret h else hfree h p) in
      freestrings_loop h (done ++ [(NULL, 0)]) xs
  end.
Definition spl_freestrings (h : heap) (l : hspl) : out (heap * hspl) :=
  let* (h, xs) := freestrings_loop h [] (hits l) in Ret (h, with_items l xs).
(** stringptrlist_freeall.c 3-8, l not NULL *)
Definition spl_freeall (h : heap) (l : hspl) : out heap :=
  let* (h, l) := spl_freestrings h l in sb_free h l.

(** stringlist.h 12-15, 24-31: a list of char*; the items are the addresses *)
Definition sl_get (l : hsb Z) (i : Z) : Z := if i <? zlen (hits l) then znth 0 (hits l) i else NULL.
Definition sl_add_dup (h : heap) (l : hsb Z) : out (Z * heap * hsb Z) :=
  let (x, h) := halloc h in
  if x =? NULL then Ret (0, h, l)
  else
    let* (ok, h, l) := sb_add h l x in
    if ok : bool then Ret (1, h, l) else let* h := hfree h x in Ret (0, h, l).
(** stringlist.h 18-21: the values RES takes inside the loop *)
Fixpoint sl_foreach_loop (fuel : nat) (l : hsb Z) (it res : Z) : out (list Z) :=
  match fuel with
  | O => Fuel
  | S fuel =>
      if it <? zlen (hits l) then
        let it' := it + 1 in
        let res' := if zlen (hits l) =? 0 then NULL else sl_get l it' in
        let* rest := sl_foreach_loop fuel l it' res' in Ret (res :: rest)
      else Ret []
  end.
Definition sl_foreach (fuel : nat) (l : hsb Z) : out (list Z) :=
  sl_foreach_loop fuel l 0 (if zlen (hits l) =? 0 then NULL else sl_get l 0).
(** sptrlist.h 19: the pointer sblist_get returns is read without a test *)
Definition sptr_get (l : hsb Z) (i : Z) : out Z := if i <? zlen (hits l) then zread (hits l) i else UB.

(** stringptr_splits.c 9-24 and stringptr_splitc.c 8-21: one stringptrlist_add for each of the n pieces,
    its result is ignored; what is added does not matter here *)
Fixpoint split_adds (h : heap) (l : hspl) (n : nat) : out (heap * hspl) :=
  match n with
  | O => Ret (h, l)
  | S n => let* (ok, h, l) := sb_add h l (1, 1) in split_adds h l n
  end.
Definition h_split (h : heap) (pieces : nat) : out (option hspl * heap) :=
  let (l, h) := sb_new h 16 in
  match l with
  | None => Ret (None, h)
  | Some l => let* (h, l) := split_adds h l pieces in Ret (Some l, h)
  end.
(** stringptr_replace.c 3-27: the result's address, NULL for no result *)
Definition h_replace (h : heap) (pieces : nat) : out (Z * heap) :=
  let* (l, h) := h_split h pieces in
  match l with
  | None => Ret (NULL, h)
  | Some l =>
      let (r, h) := halloc h in
      if r =? NULL then Ret (NULL, h)
      else let* h := hfree h (hself l) in Ret (r, h)
  end.
