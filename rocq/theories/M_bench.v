(** Model of tests/bmap_bench.c and tests/hbmap_bench.c (without USE_KHASH): test_bmap and
    test_bmap_int of both files.

    - N_ITEMS, N_SEEKS, the numbers from rand(), the outcomes of the allocations in the map and the text
      written by sprintf with %d are parameters; strdup succeeds.
    - A key that is a pointer to a string stands for the string (characters without the final 0).
    - strcmp is the comparison lex of strings times a positive number of libc's choice.
    - intcmp does not overflow: its keys are not negative.
    - Ret None: a failed assertion. *)
From Verif Require Import Base M_tglist M_bmap M_fini.

Section L.
Context {K S : Type}.
(** the insertion number i, and the other macros, of the map in use *)
Variable ins : Z -> S -> K -> Z -> out S.
Variable contains : S -> K -> out bool.
Variable get : S -> K -> out (option Z).
Variable key : Z -> K.

(** bmap_bench.c 74-78, 116-118; hbmap_bench.c 83-87, 127-129 *)
Fixpoint fill (n : nat) (i : Z) (s : S) : out S :=
  match n with
  | O => Ret s
  | Datatypes.S n => let* s := ins i s (key i) i in fill n (i + 1) s
  end.
(** bmap_bench.c 85-89, 119-121; hbmap_bench.c 94-98, 130-132 *)
Fixpoint check (n : nat) (i : Z) (s : S) : out bool :=
  match n with
  | O => Ret true
  | Datatypes.S n => let* c := contains s (key i) in if c then check n (i + 1) s else Ret false
  end.
(** bmap_bench.c 91-98, 123-128; hbmap_bench.c 100-107, 134-139: res is an int *)
Fixpoint seek (rnd : Z -> Z) (N : Z) (n : nat) (j : Z) (s : S) (res : Z) : out Z :=
  match n with
  | O => Ret res
  | Datatypes.S n =>
    let* v := get s (key (Z.rem (rnd j) N)) in
    match v with
    | None => UB
    | Some v => let r := res + v in if (- 2 ^ 31 <=? r) && (r <? 2 ^ 31) then seek rnd N n (j + 1) s r else UB
    end
  end.
End L.

(** libc strcmp; lex is the order of strings *)
Fixpoint lex (a b : list Z) : Z :=
  match a, b with
  | [], [] => 0
  | [], _ => -1
  | _, [] => 1
  | x :: a, y :: b => if x <? y then -1 else if y <? x then 1 else lex a b
  end.
Definition strcmp (mag : list Z -> list Z -> Z) (a b : list Z) : Z := lex a b * mag a b.
(** hbmap_bench.c 69-74: c is a char, converted to unsigned *)
Fixpoint x31 (h : Z) (s : list Z) : Z :=
  match s with [] => h | c :: s => x31 (u32 (u32 (u32 (h * 32) - h) + u32 c)) s end.
Definition x31_hash (s : list Z) : Z := match s with [] => 0 | c :: s => x31 (u32 c) s end.

Section T.
Variable N seeks : Z.
Variable rnd : Z -> Z.
Variable mag : list Z -> list Z -> Z.
Variable text : Z -> list Z.
Variable bss : (list Z -> Z) -> list (list Z) -> option Z.
Variable bsi : (Z -> Z) -> list Z -> option Z.
(** outcomes of the allocations during insertion i *)
Variable kas : Z -> talloc (list Z).
Variable kai va : Z -> talloc Z.

(** bmap_bench.c 68-102; result: the returned number and what bmap_fini frees *)
Definition test_bmap : out (option (Z * list (fev (list Z) Z))) :=
  let vo := vops_tglist Z 4 in
  let cmp := strcmp mag in
  let* b := fill (fun i b k v => let* (_, _, b) := bmap_insert_nocheck vo 8 cmp (kas i) (va i) b k v in Ret b) text (Z.to_nat N) 0 (bmap_init vo) in
  let* (i, b) := bmap_insert vo 8 cmp bss (kas N) (va N) b (text 0) 0 in
  if i =? 0 then
    let* ok := check (fun b k => Ret (bmap_contains cmp bss b k)) text (Z.to_nat N) 0 b in
    if ok then
      let* res := seek (bmap_get vo cmp bss) text rnd N (Z.to_nat seeks) 0 b 0 in
      let* fs := bmap_fini (vfree_tglist Z 4) 8 [1] b in
      Ret (Some (res, fs))
    else Ret None
  else Ret None.
(** bmap_bench.c 111-130 *)
Definition test_bmap_int : out (option Z) :=
  let vo := vops_tglist Z 4 in
  let* b := fill (fun i b k v => let* (_, b) := bmap_insert vo 4 Z.sub bsi (kai i) (va i) b k v in Ret b) (fun i => i) (Z.to_nat N) 0 (bmap_init vo) in
  let* ok := check (fun b k => Ret (bmap_contains Z.sub bsi b k)) (fun i => i) (Z.to_nat N) 0 b in
  if ok then let* res := seek (bmap_get vo Z.sub bsi) (fun i => i) rnd N (Z.to_nat seeks) 0 b 0 in Ret (Some res)
  else Ret None.
(** hbmap_bench.c 77-111: 256 buckets *)
Definition test_hbmap : out (option (Z * list (fev (list Z) Z))) :=
  let vo := vops_tglist Z 4 in
  let cmp := strcmp mag in
  let* h := fill (fun i h k v => let* (_, h) := hbmap_insert_nocheck vo 8 cmp x31_hash (kas i) (va i) h k v in Ret h) text (Z.to_nat N) 0 (hbmap_init vo 256) in
  let* ok := check (hbmap_contains cmp bss x31_hash) text (Z.to_nat N) 0 h in
  if ok then
    let* res := seek (hbmap_get vo cmp bss x31_hash) text rnd N (Z.to_nat seeks) 0 h 0 in
    let* fs := hbmap_fini (vfree_tglist Z 4) 8 [1] h in
    Ret (Some (res, fs))
  else Ret None.
(** hbmap_bench.c 122-141; int_hash: 120 *)
Definition test_hbmap_int : out (option Z) :=
  let vo := vops_tglist Z 4 in
  let* h := fill (fun i h k v => let* (_, h) := hbmap_insert vo 4 Z.sub bsi u32 (kai i) (va i) h k v in Ret h) (fun i => i) (Z.to_nat N) 0 (hbmap_init vo 256) in
  let* ok := check (hbmap_contains Z.sub bsi u32) (fun i => i) (Z.to_nat N) 0 h in
  if ok then let* res := seek (hbmap_get vo Z.sub bsi u32) (fun i => i) rnd N (Z.to_nat seeks) 0 h 0 in Ret (Some res)
  else Ret None.
End T.
