(** Model of include/ssalloc.c without DEBUG.  M: SSA_MAXELEM, E: SSA_ELEMSIZE, plain int
    constants.  The macro SSA_MAXLEN tested in lines 39-50 is never defined, so it counts as 0
    and SSA_COMPARETYPE is uint8_t.  Pointers are offsets from p->mem; the content of mem
    plays no role. *)
From Verif Require Import Base M_bitarray.

(** ssalloc.c 38: the #error is not reached.  != binds tighter than &. *)
Definition accepted (M : Z) : bool := Z.land M (if - M =? M then 0 else 1) =? 0.
(** ssalloc.c 29-34 *)
Record pool := mkPool { used : list Z; top : Z; avail : Z }.

(** ssalloc.c 63-71 *)
Definition ssa_set (E : Z) (p : pool) (elem : Z) : out (pool * option Z) :=
  let* u := BA_SET_TRUE (used p) elem in
  Ret (mkPool u (top p) (u64 (avail p - 1)), Some (elem * E)).
(** ssalloc.c 73-76, on ptrdiff_t *)
Definition ssa_getidx (E ptr : Z) : Z := if Z.rem ptr E =? 0 then Z.quot ptr E else -1.
(** ssalloc.c 88-90: the loop over i, n iterations left *)
Fixpoint find_bit (n : nat) (u : list Z) (i : Z) : out (option Z) :=
  match n with
  | O => Ret None
  | S n => let* g := BA_GET u i in if g =? 0 then Ret (Some i) else find_bit n u (i + 1)
  end.
(** ssalloc.c 86-91: the loop over b, n iterations left *)
Fixpoint find_elem (n : nat) (u : list Z) (b : Z) : out (option Z) :=
  match n with
  | O => Ret None
  | S n =>
      let* v := zread u b in
      if v =? 255 then find_elem n u (b + 1)
      else let* r := find_bit 8 u (8 * b) in
           match r with Some i => Ret (Some i) | None => find_elem n u (b + 1) end
  end.
(** ssalloc.c 78-94 *)
Definition ssa_alloc (M E : Z) (p : pool) (size : Z) : out (pool * option Z) :=
  if E <? size then Ret (p, None)
  else if top p <? M then
    let p := mkPool (used p) (u64 (top p + 1)) (avail p) in
    ssa_set E p (u64 (top p - 1))
  else if negb (avail p =? 0) then
    let* r := find_elem (Z.to_nat (M / 8)) (used p) 0 in
    match r with Some i => ssa_set E p i | None => Ret (p, None) end
  else Ret (p, None).
(** ssalloc.c 106: n bounds the iterations by top *)
Fixpoint shrink (n : nat) (u : list Z) (t : Z) : out Z :=
  match n with
  | O => Ret t
  | S n => if t =? 0 then Ret t else let* g := BA_GET u (t - 1) in if g =? 0 then shrink n u (t - 1) else Ret t
  end.
(** ssalloc.c 96-107.  For a negative idx other than -1 BA_GET shifts by a negative count or
    reads before used. *)
Definition ssa_free (M E : Z) (p : pool) (ptr : Z) : out pool :=
  let idx := ssa_getidx E ptr in
  if (idx =? -1) || (M <=? idx) then Ret p
  else if idx <? 0 then UB
  else
    let* g := BA_GET (used p) idx in
    if g =? 0 then Ret p
    else
      let* u := BA_SET_FALSE (used p) idx in
      let* t := shrink (Z.to_nat (top p)) u (top p) in
      Ret (mkPool u t (u64 (avail p + 1))).
(** ssalloc.c 109-112 *)
Definition ssa_init (M : Z) : pool := mkPool (zrepeat 0 (BA_SIZE_REQUIRED M)) 0 M.
