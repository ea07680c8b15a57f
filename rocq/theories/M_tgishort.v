(** Model of include/tgilist.h with a signed index type such as short, and of tests/tgilist_insert_test.c 99-120 which uses one.
    The index type has im values, from - im / 2 to im / 2 - 1; a value that does not fit is converted modulo im (gcc).  The rest
    is as in M_tglist. *)
From Verif Require Import Base M_tglist.

(** a size_t stored in the index type *)
Definition sidx (im v : Z) : Z := let m := v mod im in if m <? im / 2 then m else m - im.

Section TGS.
Context {A : Type}.
(** tgilist.h 61-67 *)
Definition tgilist_add_s (im ksz isz : Z) (ai : talloc Z) (av : talloc A) (x : tgi A) (item : A) : out (Z * tgi A) :=
  let* (ok, i) := tglist_add ksz ai (gidx x) (sidx im (tcnt (gval x))) in
  if ok =? 0 then Ret (0, mkTgi i (gval x))
  else
    let* (ok, v) := tglist_add isz av (gval x) item in
    if negb (ok =? 0) then Ret (1, mkTgi i v)
    else let* (_, i) := tglist_delete ksz i (u64 (tcnt i - 1)) in Ret (0, mkTgi i v).
(** tgilist.h 73-79 *)
Definition tgilist_insert_s (im ksz isz : Z) (ai : talloc Z) (av : talloc A) (x : tgi A) (item : A) (pos : Z) : out (Z * tgi A) :=
  let* (ok, v) := tglist_add isz av (gval x) item in
  if ok =? 0 then Ret (0, mkTgi (gidx x) v)
  else
    let* (ok, i) := tglist_insert ksz ai (gidx x) (sidx im (u64 (tcnt v - 1))) pos in
    if negb (ok =? 0) then Ret (1, mkTgi i v)
    else Ret (0, mkTgi i (mkTg (u64 (tcnt v - 1)) (tcapa v) (tmem v))).
End TGS.

(** ** tests/tgilist_insert_test.c: tgilist(int, short); the k-th insertion gets the k-th outcome of each allocation *)
Section Test.
Variables (ai av : nat -> talloc Z).
Definition ins (k : nat) (x : tgi Z) (item pos : Z) : out (Z * tgi Z) := tgilist_insert_s 65536 2 4 (ai k) (av k) x item pos.
(** lines 103-106; None: the assertion failed *)
Fixpoint ins_loop (n : nat) (i : Z) (x : tgi Z) : out (option (tgi Z)) :=
  match n with
  | O => Ret (Some x)
  | S n =>
      let* (_, x) := ins (Z.to_nat i) x i (u64 i) in
      if tgilist_getsize x =? u64 (i + 1) then ins_loop n (i + 1) x else Ret None
  end.
(** assert(tgilist_get(l, pos) == v) for several pos and v *)
Fixpoint gets (x : tgi Z) (l : list (Z * Z)) : out bool :=
  match l with
  | [] => Ret true
  | (pos, v) :: l => let* y := tgilist_get x pos in if y =? v then gets x l else Ret false
  end.
(** lines 99-120; N: 16384 in line 103; the list from calloc is not NULL.  false: an assertion failed *)
Definition insert_test (N : Z) : out bool :=
  let* x := ins_loop (Z.to_nat N) 0 tgilist_init in
  match x with
  | None => Ret false
  | Some x =>
      let* b := gets x [(0, 0); (1, 1); (2, 2); (3, 3); (16000, 16000)] in
      if negb b then Ret false
      else
        let* (r, x) := ins (Z.to_nat N) x 3 3 in
        if r =? 0 then Ret false else gets x [(3, 3); (4, 3); (16000, 15999)]
  end.
End Test.
