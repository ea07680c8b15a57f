(** The comparisons of the binary searches: the loops of M_sblist and M_tglist once more,
    with a log of the positions whose item is handed to the comparator, in order.
    Nothing else differs; T_bscost states that the result is the same. *)
From Verif Require Import Base M_sblist M_tglist.

(** src/sblist/sblist_bsearch.c 4-12 *)
Fixpoint bsearch_log_loop (fuel : nat) (cmp : list Z -> list Z -> Z) (l : sbl)
    (item : list Z) (base nel : Z) : out (Z * list Z) :=
  match fuel with
  | O => Fuel
  | S fuel =>
      if 0 <? nel then
        let x := u64 (base + nel / 2) in
        let* c := cmp_at cmp l item x in
        if c <? 0 then
          let* (r, log) := bsearch_log_loop fuel cmp l item base (nel / 2) in Ret (r, x :: log)
        else if 0 <? c then
          let* (r, log) := bsearch_log_loop fuel cmp l item (u64 (x + 1)) (u64 (nel - (nel / 2 + 1))) in
          Ret (r, x :: log)
        else Ret (x, [x])
      else Ret (SIZE_MAX, [])
  end.
(** src/sblist/sblist_bsearch.c 2-14 *)
Definition sblist_bsearch_log cmp (l : sbl) (item : list Z) : out (Z * list Z) :=
  bsearch_log_loop (S (Z.to_nat (cnt l))) cmp l item 0 (cnt l).

(** src/sblist/sblist_insert_sorted.c 10-24 *)
Fixpoint sorted_log_loop (fuel : nat) (cmp : list Z -> list Z -> Z) (l : sbl)
    (o : list Z) (hi lo : Z) : out (Z * list Z) :=
  match fuel with
  | O => Fuel
  | S fuel =>
      let c := u64 (hi + u64 (lo - hi) / 2) in
      let* r := cmp_at cmp l o c in
      if hi =? lo then Ret (if 0 <? r then u64 (lo + 1) else lo, [c])
      else
        let '(hi, lo) :=
          if r <? 0 then (hi, if c =? 0 then 0 else u64 (c - 1))
          else if 0 <? r then (u64 (c + 1), lo)
          else (c, c) in
        let hi := if lo <? hi then lo else hi in
        let* (p, log) := sorted_log_loop fuel cmp l o hi lo in Ret (p, c :: log)
  end.
(** src/sblist/sblist_insert_sorted.c 4-25 *)
Definition sblist_insert_sorted_log (al : alloc) cmp (l : sbl) (o : list Z) : out (Z * sbl * list Z) :=
  let* (lo, log) := (if cnt l =? 0 then Ret (0, [])
              else sorted_log_loop (S (Z.to_nat (cnt l))) cmp l o 0 (u64 (cnt l - 1))) in
  let* (ok, l) := sblist_insert al l o lo in
  if ok =? 0 then Ret (SIZE_MAX, l, log) else Ret (lo, l, log).

Section TG.
Context {A : Type}.
(** include/tglist.h 179-199 *)
Fixpoint tg_log_loop (fuel : nat) (cmp : A -> A -> Z) (l : tgl A) (o : A) (hi lo : Z) : out (Z * list Z) :=
  match fuel with
  | O => Fuel
  | S fuel =>
      let c := u64 (hi + u64 (lo - hi) / 2) in
      let* p := tglist_get l c in
      let r := cmp o p in
      if hi =? lo then Ret (if 0 <? r then u64 (lo + 1) else lo, [c])
      else
        let '(hi, lo) :=
          if r <? 0 then (hi, if c =? 0 then 0 else u64 (c - 1))
          else if 0 <? r then (u64 (c + 1), lo)
          else (c, c) in
        let hi := if lo <? hi then lo else hi in
        let* (p, log) := tg_log_loop fuel cmp l o hi lo in Ret (p, c :: log)
  end.
Definition tg_sorted_pos_log (cmp : A -> A -> Z) (l : tgl A) (o : A) : out (Z * list Z) :=
  if tcnt l =? 0 then Ret (0, []) else tg_log_loop (S (Z.to_nat (tcnt l))) cmp l o 0 (u64 (tcnt l - 1)).
(** include/tglist.h 201-206 *)
Definition tglist_insert_sorted_log (isz : Z) (al : talloc A) (cmp : A -> A -> Z) (l : tgl A) (item : A)
  : out (Z * tgl A * list Z) :=
  let* (idx, log) := tg_sorted_pos_log cmp l item in
  if idx =? SIZE_MAX then Ret (idx, l, log)
  else
    let* (ok, l) := tglist_insert isz al l item idx in
    if negb (ok =? 0) then Ret (idx, l, log) else Ret (SIZE_MAX, l, log).
End TG.
