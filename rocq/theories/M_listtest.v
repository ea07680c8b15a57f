(** Model of tests/sblist_insert_test.c, tests/sblist_delete_test.c, tests/hashlist_test.c,
    tests/tglist_delete_test.c, tests/tglist_insert_test.c and tests/tgilist_insert_test.c (except
    lines 99-120, which are in M_tgishort).

    A test is a sequence of calls and assertions; the statements of the programs are written down in
    their order.  The k-th adding or inserting call gets the k-th outcome of the allocations, growth
    or not.  The list structs themselves are there.  None: an assertion failed (abort). *)
From Coq Require Import String Ascii.
From Verif Require Import Base M_sblist M_tglist M_tgishort M_hashlist M_sort M_tltest M_lstest M_hashtest M_bench.

Section Script.
Context {L A : Type}.
(** what a test does with a list; TCheck: an assertion about the item at a position *)
Inductive step := TAdd (x : A) | TIns (x : A) (pos : Z) | TDel (pos : Z) | TSize (n : Z) | TCheck (pos : Z) (p : A -> out bool).
(** the list type in use; i_get: dereferencing NULL is UB *)
Record impl := mkImpl { i_add : nat -> L -> A -> out L; i_ins : nat -> L -> A -> Z -> out L; i_del : L -> Z -> out L; i_size : L -> Z; i_get : L -> Z -> out A }.
Fixpoint script (im : impl) (k : nat) (l : L) (ss : list step) : out (option (nat * L)) :=
  match ss with
  | [] => Ret (Some (k, l))
  | TAdd x :: ss => let* l := i_add im k l x in script im (S k) l ss
  | TIns x pos :: ss => let* l := i_ins im k l x pos in script im (S k) l ss
  | TDel pos :: ss => let* l := i_del im l pos in script im k l ss
  | TSize n :: ss => if i_size im l =? n then script im k l ss else Ret None
  | TCheck pos p :: ss => let* x := i_get im l pos in let* b := p x in if b then script im k l ss else Ret None
  end.
End Script.
Arguments step : clear implicits.
Arguments impl : clear implicits.

(** several lists one after the other; true: all assertions held *)
Fixpoint scripts {L A} (im : impl L A) (k : nat) (tests : list (L * list (step A))) : out bool :=
  match tests with
  | [] => Ret true
  | (l, ss) :: tests => let* r := script im k l ss in match r with None => Ret false | Some (k, _) => scripts im k tests end
  end.

(** sblist; enc, dec: the bytes of an item and back *)
Definition sb_impl {A} (enc : A -> list Z) (dec : list Z -> A) (al : nat -> alloc) : impl sbl A :=
  mkImpl (fun k l x => let* (_, l) := sblist_add (al k) l (enc x) in Ret l) (fun k l x pos => let* (_, l) := sblist_insert (al k) l (enc x) pos in Ret l)
    sblist_delete M_sblist.cnt (fun l pos => match sblist_get l pos with None => UB | Some off => let* b := zreads (mem l) off (isz l) in Ret (dec b) end).
(** tglist with items of isz bytes *)
Definition tg_impl {A} (isz : Z) (al : nat -> talloc A) : impl (tgl A) A :=
  mkImpl (fun k l x => let* (_, l) := tglist_add isz (al k) l x in Ret l) (fun k l x pos => let* (_, l) := tglist_insert isz (al k) l x pos in Ret l)
    (fun l pos => let* (_, l) := tglist_delete isz l pos in Ret l) tcnt tglist_get.
(** tgilist(A, short) and tgilist(A, unsigned short) *)
Definition tgs_impl {A} (isz : Z) (ai : nat -> talloc Z) (av : nat -> talloc A) : impl (tgi A) A :=
  mkImpl (fun k l x => let* (_, l) := tgilist_add_s 65536 2 isz (ai k) (av k) l x in Ret l) (fun k l x pos => let* (_, l) := tgilist_insert_s 65536 2 isz (ai k) (av k) l x pos in Ret l)
    (fun l pos => let* (_, l) := tgilist_delete 2 l pos in Ret l) tgilist_getsize tgilist_get.
Definition tgu_impl {A} (isz : Z) (ai : nat -> talloc Z) (av : nat -> talloc A) : impl (tgi A) A :=
  mkImpl (fun k l x => let* (_, l) := tgilist_add 65536 2 isz (ai k) (av k) l x in Ret l) (fun k l x pos => let* (_, l) := tgilist_insert 65536 2 isz (ai k) (av k) l x pos in Ret l)
    (fun l pos => let* (_, l) := tgilist_delete 2 l pos in Ret l) tgilist_getsize tgilist_get.

(** assert(get(l, pos) == v) *)
Definition TGet (pos v : Z) : step Z := TCheck pos (fun x => Ret (x =? v)).
(** (size_t) -1 *)
Definition minus1 : Z := 18446744073709551615.

(** sblist_insert_test.c 7-25, tglist_insert_test.c 65-85, tgilist_insert_test.c 75-95: the same calls and assertions *)
Definition steps1 : list (step Z) := [TSize 0; TAdd 0; TSize 1; TAdd 1; TSize 2; TAdd 2; TSize 3; TIns 3 2; TSize 4; TGet 0 0; TGet 1 1; TGet 2 3; TGet 3 2; TSize 4].
(** sblist_insert_test.c 29-49 *)
Definition steps2 : list (step Z) := [TSize 0; TIns 0 0; TSize 1; TIns 1 1; TSize 2; TIns 2 2; TSize 3; TIns 3 3; TSize 4; TGet 0 0; TGet 1 1; TGet 2 2; TGet 3 3].
(** sblist_insert_test.c 52-72, tglist_insert_test.c 115-135, tgilist_insert_test.c 126-146 *)
Definition steps3 : list (step Z) := [TSize 0; TIns 0 0; TSize 1; TIns 1 0; TSize 2; TIns 2 0; TSize 3; TIns 3 0; TSize 4; TGet 0 3; TGet 1 2; TGet 2 1; TGet 3 0].
Definition ints (al : nat -> alloc) : impl sbl Z := sb_impl int_bytes int_of al.
Definition sblist_insert_test (al : nat -> alloc) : out bool :=
  let* l1 := sblist_init 4 4 in let* l2 := sblist_init 4 1 in let* l3 := sblist_init 4 1 in
  scripts (ints al) 0 [(l1, steps1); (l2, steps2); (l3, steps3)].

(** sblist_delete_test.c 16-18, tglist_delete_test.c 11-13 *)
Definition adds16 : list (step Z) := map (fun c => TAdd (Z.of_nat c)) (seq 0 16).
(** sblist_delete_test.c 21-24, 28-31, tglist_delete_test.c 16-19, tglist_insert_test.c 97-100 *)
Definition first4 : list (step Z) := [TGet 0 0; TGet 1 1; TGet 2 2; TGet 3 3].
(** sblist_delete_test.c 36-50, tglist_delete_test.c 24-38 *)
Definition after5and8 : list (step Z) := [TSize 14] ++ first4 ++ [TGet 4 4; TGet 5 6; TGet 6 7; TGet 7 8; TGet 8 10; TGet 9 11; TGet 10 12; TGet 11 13; TGet 12 14; TGet 13 15].
(** sblist_delete_test.c 51-58, tglist_delete_test.c 40-48 *)
Definition ends : list (step Z) := [TDel 13; TSize 13; TGet 12 14; TGet 11 13; TDel 0; TSize 12; TGet 0 1; TGet 11 14].
(** sblist_delete_test.c 5-66: main *)
Definition sb_delete_steps : list (step Z) :=
  [TSize 0; TDel 5; TDel 0; TDel minus1; TSize 0] ++ adds16 ++ [TSize 16] ++ first4 ++ [TDel minus1; TSize 16] ++ first4 ++
  [TDel 5; TDel 8] ++ after5and8 ++ ends ++ [TDel 12; TSize 12; TGet 0 1; TGet 11 14].
Definition sblist_delete_test (al : nat -> alloc) : out bool :=
  let* l := sblist_init 1 16 in scripts (sb_impl (fun c => [u8 c]) (fun b => znth 0 b 0) al) 0 [(l, sb_delete_steps)].
(** tglist_delete_test.c 5-51 *)
Definition tg_delete_steps : list (step Z) := [TSize 0] ++ adds16 ++ [TSize 16] ++ first4 ++ [TDel 5; TDel 8] ++ after5and8 ++ ends.
Definition tglist_delete_test (al : nat -> talloc Z) : out bool := scripts (tg_impl 1 al) 0 [(tglist_init, tg_delete_steps)].

(** hashlist_test.c 5-8: the struct *)
Definition hv (hash value : Z) : list Z := int_bytes hash ++ int_bytes value.
(** p = hashlist_next(h, &i) with the assertions on the fields, or assert(!p) *)
Fixpoint nexts (h : hashlist) (it : hiter) (want : list (option (Z * Z))) : out bool :=
  match want with
  | [] => Ret true
  | w :: want =>
      let* (p, it) := hashlist_next h it in
      match p, w with
      | Some b, Some (hash, value) =>
          if (int_of (ztake 4 b) =? hash) && (int_of (ztake 4 (zdrop 4 b)) =? value) then nexts h it want else Ret false
      | None, None => nexts h it want
      | _, _ => Ret false
      end
  end.
(** hashlist_test.c 10-71; newok: the allocations of the lists of the buckets; the results of hashlist_add are ignored *)
Definition hashlist_test (newok : nat -> bool) (al : nat -> alloc) : out bool :=
  let h := hashlist_new 16 8 in
  let* (_, h) := hashlist_add (newok 0%nat) (al 0%nat) h 1 (hv 1 1) in
  let* (_, h) := hashlist_add (newok 1%nat) (al 1%nat) h 1 (hv 1 2) in
  let* b := nexts h hashlist_iterator_init [Some (1, 1); Some (1, 2); None] in
  if negb b then Ret false
  else
    let* (_, h) := hashlist_add (newok 2%nat) (al 2%nat) h 15 (hv 15 1) in
    let* (_, h) := hashlist_add (newok 3%nat) (al 3%nat) h 15 (hv 15 2) in
    let* (_, h) := hashlist_add (newok 4%nat) (al 4%nat) h 15 (hv 15 3) in
    nexts h hashlist_iterator_init [Some (1, 1); Some (1, 2); Some (15, 1); Some (15, 2); Some (15, 3); None].

(** tglist_insert_test.c 4-8 *)
Definition intcmp (a b : Z) : Z := a - b.
(** tglist_insert_test.c 89-102; N: 16384 in line 92 *)
Definition loop_steps (N : nat) : list (step Z) :=
  [TSize 0] ++ flat_map (fun i => [TIns (Z.of_nat i) (Z.of_nat i); TSize (Z.of_nat i + 1)]) (seq 0 N) ++ first4 ++ [TGet 16000 16000].
(** tglist_insert_test.c 88-109 *)
Definition tg_loop_test (al : nat -> talloc Z) (k : nat) (N : nat) : out (option nat) :=
  let* r := script (tg_impl 4 al) k tglist_init (loop_steps N) in
  match r with
  | None => Ret None
  | Some (k, l) =>
      let* (r, l) := tglist_insert_sorted 4 (al k) intcmp l 3 in
      if r =? 0 then Ret None
      else let* r := script (tg_impl 4 al) (S k) l [TGet 3 3; TGet 4 3; TGet 16000 15999] in Ret (option_map fst r)
  end.
(** tglist_insert_test.c 19-34, tgilist_insert_test.c 20-35 *)
Definition org : list (list Z) :=
  [lit "Lorem ipsum dolor sit amet, "; lit "consectetur adipiscing elit, "; lit "sed do eiusmod tempor incididunt "; lit "ut labore et dolore magna aliqua. ";
   lit "Ut enim ad minim veniam, "; lit "quis nostrud exercitation ullamco laboris "; lit "nisi ut aliquip ex ea commodo consequat. "; lit "Duis aute irure dolor in reprehenderit ";
   lit "in voluptate velit esse cillum dolore "; lit "eu fugiat nulla pariatur. "; lit "Excepteur sint occaecat cupidatat non proident, ";
   lit "sunt in culpa qui officia deserunt mollit "; lit "anim id est laborum."].
(** a char* in a list is the string it points to; None: NULL from strdup, strcmp of it is UB *)
Definition same (s : list Z) (x : option (list Z)) : out bool := match x with None => UB | Some t => Ret (if list_eq_dec Z.eq_dec s t then true else false) end.
(** !strncmp("Duis", x, 4) *)
Definition duis (x : option (list Z)) : out bool := match x with None => UB | Some t => Ret (if list_eq_dec Z.eq_dec (ztake 4 t) (lit "Duis") then true else false) end.
Definition not_duis (x : option (list Z)) : out bool := let* b := duis x in Ret (negb b).
(** tglist_insert_test.c 39-40, tgilist_insert_test.c 40-41, 57-58: for(i = 0; org[i]; i++) assert(!strcmp(org[i], get(l, i))) *)
Definition all_org : list (step (option (list Z))) := map (fun i => TCheck (Z.of_nat i) (same (nth i org []))) (seq 0 (List.length org)).
Section Str.
Variable mag : list Z -> list Z -> Z.           (* strcmp's magnitude *)
Variable qs : list (option (list Z)) -> list (option (list Z)). (* qsort *)
Variable al : nat -> talloc (option (list Z)).
Variable dup : nat -> bool.                     (* does the n-th strdup succeed *)
Definition strdup (n : nat) (s : list Z) : option (list Z) := if dup n then Some s else None.
(** tglist_insert_test.c 10-14; it is never called with a NULL: all_org and sorted_loop end with UB first *)
Definition strof (x : option (list Z)) : list Z := match x with Some s => s | None => [] end.
Definition mystrstrcmp (a b : option (list Z)) : Z := strcmp mag (strof a) (strof b).
(** tglist_insert_test.c 43-46: the list is not empty, so a NULL would be compared *)
Fixpoint sorted_loop (n k : nat) (l : tgl (option (list Z))) (ss : list (list Z)) : out (tgl (option (list Z))) :=
  match ss with
  | [] => Ret l
  | s :: ss =>
      match strdup n s with
      | None => UB
      | Some t => let* (_, l) := tglist_insert_sorted 8 (al k) mystrstrcmp l (Some t) in sorted_loop (S n) (S k) l ss
      end
  end.
(** tglist_insert_test.c 36-38.  tglist_add is a macro (include/tglist.h 111-114): strdup is not called if the growth fails *)
Fixpoint dup_loop (n k : nat) (l : tgl (option (list Z))) (ss : list (list Z)) : out (nat * tgl (option (list Z))) :=
  match ss with
  | [] => Ret (n, l)
  | s :: ss =>
      let '(ok, l) := tglist_prepare_addition 8 (al k) l in
      if negb (ok =? 0) then
        let* (_, l) := tglist_set l (strdup n s) (u64 (tcnt l - 1)) in dup_loop (S n) (S k) l ss
      else dup_loop n (S k) l ss
  end.
(** tglist_insert_test.c 16-59; the frees at the end are left out *)
Definition tg_strtest (k : nat) : out bool :=
  let* (n, l) := dup_loop 0 k tglist_init org in
  let k := (k + List.length org)%nat in
  let* r := script (tg_impl 8 al) k l all_org in
  match r with
  | None => Ret false
  | Some (k, l) =>
      let* l := tglist_sort qs l in
      let* l := sorted_loop n k l org in
      let* r := script (tg_impl 8 al) (k + List.length org)%nat l [TCheck 0 duis; TCheck 1 duis; TDel 1; TDel 0; TCheck 0 not_duis] in
      Ret match r with None => false | Some _ => true end
  end.
End Str.
(** tglist_insert_test.c 61-138: main; al2: the allocations of strtest *)
Definition tglist_insert_test mag qs (al : nat -> talloc Z) (al2 : nat -> talloc (option (list Z))) (dup : nat -> bool) (N : nat) : out bool :=
  let* r := script (tg_impl 4 al) 0 tglist_init steps1 in
  match r with
  | None => Ret false
  | Some (k, _) =>
      let* r := tg_loop_test al k N in
      match r with
      | None => Ret false
      | Some k =>
          let* b := scripts (tg_impl 4 al) k [(tglist_init, steps3)] in
          if b then tg_strtest mag qs al2 dup 0 else Ret false
      end
  end.

(** tgilist_insert_test.c 73-97 and 125-146 *)
Definition tgi_int_tests (ai av : nat -> talloc Z) : out bool := scripts (tgs_impl 4 ai av) 0 [(tgilist_init, steps1); (tgilist_init, steps3)].
(** tgilist_insert_test.c 17-69: tgilist_add and tgilist_insert are macros too, but every strdup succeeds here *)
Definition tgi_strtest (ai : nat -> talloc Z) (av : nat -> talloc (option (list Z))) : out bool :=
  scripts (tgu_impl 8 ai av) 0
    [(tgilist_init, map (fun s => TAdd (Some s)) org ++ all_org ++
       [TIns (Some (nth 7 org [])) 0; TIns (Some (nth 7 org [])) 0; TSize 15; TCheck 0 duis; TCheck 1 duis; TDel 1; TDel 0; TCheck 0 not_duis; TSize 13] ++ all_org ++
       [TDel 1; TCheck 0 (same (nth 0 org [])); TCheck 1 (same (nth 2 org [])); TSize 12])].
