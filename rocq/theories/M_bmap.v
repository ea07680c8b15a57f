(** Model of include/bmap.h and include/hbmap.h.

    - The value list is tglist, or tgilist when BMAP_USE_TGILIST is defined; both are
      passed as a record of operations.
    - libc bsearch is an argument: it gets the comparison with the key and the array and
      returns the index of an element or nothing.
    - The comparator is a pure function. *)
From Verif Require Import Base M_tglist.

(** operations of the value list type V, its state St, its allocation outcomes VA *)
Record vops (V St VA : Type) := mkVops {
  v_init : St;
  v_insert : VA -> St -> V -> Z -> out (Z * St);
  v_set : St -> V -> Z -> out (Z * St);
  v_get : St -> Z -> out V;
  v_delete : St -> Z -> out (Z * St) }.
Arguments v_init {V St VA}.
Arguments v_insert {V St VA}.
Arguments v_set {V St VA}.
Arguments v_get {V St VA}.
Arguments v_delete {V St VA}.

(** bmap.h 53-54 *)
Definition vops_tglist (V : Type) (isz : Z) : vops V (tgl V) (talloc V) :=
  mkVops _ _ _ tglist_init (fun al s v p => tglist_insert isz al s v p) (fun s v p => tglist_set s v p)
    (fun s p => tglist_get s p) (fun s p => tglist_delete isz s p).
(** bmap.h 48-51 with 63: index type unsigned *)
Definition vops_tgilist (V : Type) (isz : Z) : vops V (tgi V) (talloc Z * talloc V) :=
  mkVops _ _ _ tgilist_init (fun al s v p => tgilist_insert 4294967296 4 isz (fst al) (snd al) s v p)
    (fun s v p => tgilist_set s v p) (fun s p => tgilist_get s p) (fun s p => tgilist_delete 4 s p).

Section B.
Context {K V St VA : Type}.
Variable vo : vops V St VA.
Variable ksz : Z.
Variable cmp : K -> K -> Z.
Variable bs : (K -> Z) -> list K -> option Z.

(** bmap.h 60-70, tmp left out *)
Record bmap := mkBm { bkeys : tgl K; bvals : St }.
(** bmap.h 79-81 *)
Definition bmap_init : bmap := mkBm tglist_init (v_init vo).
(** bmap.h 106-108 *)
Definition bmap_getsize (b : bmap) : Z := tcnt (bkeys b).
Definition bmap_getkey (b : bmap) (i : Z) : out K := tglist_get (bkeys b) i.
Definition bmap_getval (b : bmap) (i : Z) : out V := v_get vo (bvals b) i.
(** bmap.h 104 *)
Definition bmap_setvalue (b : bmap) (v : V) (pos : Z) : out (Z * bmap) :=
  let* (r, s) := v_set vo (bvals b) v pos in Ret (r, mkBm (bkeys b) s).
(** bmap.h 112-113, 149-154 *)
Definition bmap_find (b : bmap) (key : K) : Z :=
  match bs (cmp key) (ztake (bmap_getsize b) (tmem (bkeys b))) with None => -1 | Some i => i end.
(** bmap.h 115 *)
Definition bmap_contains (b : bmap) (key : K) : bool := negb (bmap_find b key =? -1).
(** bmap.h 118-121: the value the returned pointer points to, None = NULL *)
Definition bmap_get (b : bmap) (key : K) : out (option V) :=
  let ss := bmap_find b key in
  if ss =? -1 then Ret None else let* v := bmap_getval b ss in Ret (Some v).
(** bmap.h 126-133; result: value of the expression, tmp.ss, map *)
Definition bmap_insert_nocheck (ka : talloc K) (va : VA) (b : bmap) (key : K) (val : V) : out (Z * Z * bmap) :=
  let* (p, ks) := tglist_insert_sorted ksz ka cmp (bkeys b) key in
  let ss := s64 p in
  if ss =? -1 then Ret (-1, ss, mkBm ks (bvals b))
  else
    let* (ok, vs) := v_insert vo va (bvals b) val ss in
    if negb (ok =? 0) then Ret (ss, ss, mkBm ks vs)
    else
      let* (_, ks) := tglist_delete ksz ks ss in
      Ret (-1, ss, mkBm ks vs).
(** bmap.h 137-141: the comma operator binds weaker than ?:, so the value is tmp.ss in
    every case *)
Definition bmap_insert (ka : talloc K) (va : VA) (b : bmap) (key : K) (val : V) : out (Z * bmap) :=
  let ss := bmap_find b key in
  if ss =? -1 then
    let* (_, ss, b) := bmap_insert_nocheck ka va b key val in Ret (ss, b)
  else
    let* (_, s) := v_set vo (bvals b) val ss in Ret (ss, mkBm (bkeys b) s).
(** bmap.h 143-147 *)
Definition bmap_delete (b : bmap) (pos : Z) : out bmap :=
  let* (_, ks) := tglist_delete ksz (bkeys b) pos in
  let* (_, vs) := v_delete vo (bvals b) pos in
  Ret (mkBm ks vs).

(** ---------- hbmap.h ---------- *)
(** hbmap.h 27-34: the array of buckets; the hash function returns unsigned *)
Variable hash : K -> Z.
Notation hb := (list bmap) (only parsing).
(** hbmap.h 52-58 *)
Definition hbmap_init (nb : Z) : hb := zrepeat bmap_init nb.
(** hbmap.h 87-89 *)
Definition it_bucket (i : Z) : Z := Z.shiftr i 32.
Definition it_index (i : Z) : Z := Z.land i 4294967295.
Definition it_makebucket (i : Z) : Z := u64 (Z.shiftl i 32).
(** hbmap.h 139-140 *)
Definition buckindex (h : hb) (key : K) : Z := hash key mod zlen h.
(** hbmap.h 142-145; bmap_find's result converted to int64_t, then or-ed as uint64_t *)
Definition hbmap_find (h : hb) (key : K) : out Z :=
  let it := it_makebucket (buckindex h key) in
  let* b := zread h (it_bucket it) in
  Ret (Z.lor it (u64 (bmap_find b key))).
(** hbmap.h 147 *)
Definition hbmap_contains (h : hb) (key : K) : out bool :=
  let* it := hbmap_find h key in Ret (negb (it =? SIZE_MAX)).
(** hbmap.h 127-131 *)
Definition hbmap_getkey (h : hb) (it : Z) : out K := let* b := zread h (it_bucket it) in bmap_getkey b (it_index it).
Definition hbmap_getval (h : hb) (it : Z) : out V := let* b := zread h (it_bucket it) in bmap_getval b (it_index it).
(** hbmap.h 133-134 *)
Definition hbmap_setvalue (h : hb) (v : V) (it : Z) : out hb :=
  let* b := zread h (it_bucket it) in
  let* (_, b) := bmap_setvalue b v (it_index it) in
  zwrite h (it_bucket it) b.
(** hbmap.h 150-152 *)
Definition hbmap_get (h : hb) (key : K) : out (option V) :=
  let* it := hbmap_find h key in
  if it =? SIZE_MAX then Ret None else let* v := hbmap_getval h it in Ret (Some v).
(** hbmap.h 157-160 *)
Definition hbmap_insert_nocheck (ka : talloc K) (va : VA) (h : hb) (key : K) (val : V) : out (Z * hb) :=
  let it := it_makebucket (buckindex h key) in
  let* b := zread h (it_bucket it) in
  let* (r, _, b) := bmap_insert_nocheck ka va b key val in
  let* h := zwrite h (it_bucket it) b in
  Ret (Z.lor it (u64 r), h).
(** hbmap.h 164-167 *)
Definition hbmap_insert (ka : talloc K) (va : VA) (h : hb) (key : K) (val : V) : out (Z * hb) :=
  let* it := hbmap_find h key in
  if it =? SIZE_MAX then hbmap_insert_nocheck ka va h key val
  else let* h := hbmap_setvalue h val it in Ret (it, h).
(** hbmap.h 169-170 *)
Definition hbmap_delete (h : hb) (it : Z) : out hb :=
  let* b := zread h (it_bucket it) in
  let* b := bmap_delete b (it_index it) in
  zwrite h (it_bucket it) b.

(** hbmap.h 91-102 *)
Definition bucket_valid (h : hb) (it : Z) : bool := it_bucket it <? zlen h.
Definition index_valid (h : hb) (it : Z) : out bool :=
  let* b := zread h (it_bucket it) in Ret (it_index it <? bmap_getsize b).
Definition iter_valid (h : hb) (it : Z) : out bool := if bucket_valid h it then index_valid h it else Ret false.
(** hbmap.h 104-107 *)
Definition next_step (h : hb) (it : Z) : out Z :=
  let* v := index_valid h (u64 (it + 1)) in
  Ret (if v then u64 (it + 1) else it_makebucket (u64 (it_bucket it + 1))).
(** hbmap.h 109-113 *)
Fixpoint next_valid (fuel : nat) (h : hb) (it : Z) : out Z :=
  match fuel with
  | O => Fuel
  | S fuel =>
    let* it := next_step h it in
    if bucket_valid h it then
      let* v := index_valid h it in
      if v then Ret it else next_valid fuel h it
    else Ret it
  end.
Definition hbmap_next_valid (h : hb) (it : Z) : out Z := next_valid (S (length h)) h it.
(** hbmap.h 121-125 with a body that may change the map; result: iterators the body saw *)
Fixpoint foreach_loop (fuel : nat) (body : hb -> Z -> out hb) (h : hb) (it : Z) : out (list Z * hb) :=
  match fuel with
  | O => Fuel
  | S fuel =>
    let* v := iter_valid h it in
    if v then
      let* h := body h it in
      let* nx := hbmap_next_valid h it in
      let* (l, h) := foreach_loop fuel body h nx in
      Ret (it :: l, h)
    else Ret ([], h)
  end.
Definition hbmap_foreach (fuel : nat) (body : hb -> Z -> out hb) (h : hb) : out (list Z * hb) :=
  let* v := iter_valid h 0 in
  let* it := (if v then Ret 0 else hbmap_next_valid h 0) in
  foreach_loop fuel body h it.
(** hbmap.h 117-120: the documented deletion loop's body *)
Fixpoint delete_body (fuel : nat) (h : hb) (it : Z) : out hb :=
  match fuel with
  | O => Fuel
  | S fuel =>
    let* v := index_valid h it in
    if v then let* h := hbmap_delete h it in delete_body fuel h it else Ret h
  end.
End B.
Arguments bmap K St : clear implicits.
