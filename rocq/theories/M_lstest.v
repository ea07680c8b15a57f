(** Model of tests/sblist_test.c, tests/tglist_test.c and tests/sptrlist_test.c.

    - DATASIZE, the numbers from rand(), the outcomes of the allocations and the first byte of the block
      disturber are parameters; the k-th of all calls of make_struct and of the list's add gets the k-th of each.
    - free and malloc of disturber (every fourth round) are left out except for that byte: None if malloc failed.
    - An item is read as a whole.
    - Ret None: an assertion failed (abort). *)
From Verif Require Import Base.
From Verif Require M_sblist M_tglist.
From Verif Require Import M_tltest.

(** an int read from memory: int_bytes back *)
Definition int_of (b : list Z) : Z := s32 (znth 0 b 0 + 256 * znth 0 b 1 + 65536 * znth 0 b 2 + 16777216 * znth 0 b 3).

Section Structs.
Variable ds : Z.  (* DATASIZE = sizeof(struct test1) *)
Variable rnd : nat -> Z.
Variable dist : nat -> option Z.

(** sblist_test.c 13-19, tglist_test.c 17-23: st is the static struct; the int of rand() is converted to
    size_t *)
Definition make_struct (k : nat) (x y : Z) (st : list Z) : out (list Z) :=
  match dist k with
  | None => UB
  | Some b => if ds - 8 =? 0 then UB else zwrite (int_bytes x ++ int_bytes y ++ zdrop 8 st) (8 + u64 (rnd k) mod (ds - 8)) b
  end.

(** the list in use: add, and the item a pointer from get points to (None: NULL) *)
Section Loops.
Context {L : Type}.
Variable add : nat -> L -> list Z -> out L.
Variable get : L -> Z -> out (option (list Z)).
(** sblist_test.c 30-37; o is o_0, an int *)
Fixpoint add_loop (n : nat) (k : nat) (o : Z) (st : list Z) (l : L) : out (list Z * L) :=
  match n with
  | O => Ret (st, l)
  | S n =>
      let* o1 := int_r (o + 1) in
      let* o2 := int_r (o1 + 1) in
      let* st := make_struct k o o1 st in
      let* l := add k l st in
      add_loop n (S k) o2 st l
  end.
(** sblist_test.c 39-41, tglist_test.c 43-45 *)
Fixpoint check_loop (n : nat) (o : Z) (l : L) : out (option Z) :=
  match n with
  | O => Ret (Some o)
  | S n =>
      let* p := get l (o / 2) in
      match p with
      | None => Ret None
      | Some it =>
          let* o1 := int_r (o + 1) in
          if negb (int_of (ztake 4 it) =? o) then Ret None
          else
            let* o2 := int_r (o1 + 1) in
            if negb (int_of (ztake 4 (zdrop 4 it)) =? o1) then Ret None else check_loop n o2 l
      end
  end.
End Loops.

(** ** sblist_test.c *)
Section Sblist.
Variable al : nat -> M_sblist.alloc.
Definition sadd (k : nat) (l : M_sblist.sbl) (x : list Z) : out M_sblist.sbl := let* (_, l) := M_sblist.sblist_add (al k) l x in Ret l.
Definition sget (l : M_sblist.sbl) (i : Z) : out (option (list Z)) :=
  match M_sblist.sblist_get l (u64 i) with None => Ret None | Some off => let* x := zreads (M_sblist.mem l) off (M_sblist.isz l) in Ret (Some x) end.
(** sblist_test.c 21-45; the result is the static struct and the number of calls of make_struct.  int times int is
    converted to size_t in the comparison with i *)
Definition test_single (k : nat) (st : list Z) (max blocks blocktimes : Z) : out (option (list Z * nat)) :=
  let* m := int_r (max * blocktimes) in
  let n := Z.to_nat (u64 m) in
  let* l := M_sblist.sblist_init ds (u64 blocks) in
  let* (st, l) := add_loop sadd n k 0 st l in
  let* c := check_loop sget n 0 l in
  match c with
  | None => Ret None
  | Some o => let* p := sget l (o / 2) in match p with Some _ => Ret None | None => Ret (Some (st, (k + n)%nat)) end
  end.
(** sblist_test.c 47-56 *)
Fixpoint test_each (fuel : nat) (k : nat) (st : list Z) (max round : Z) : out (option (list Z * nat)) :=
  match fuel with
  | O => Fuel
  | S fuel =>
      let* r := test_single k st max round 10 in
      match r with
      | None => Ret None
      | Some (st, k) => let* round := int_r (round + 1) in if round <? max then test_each fuel k st max round else Ret (Some (st, k))
      end
  end.
(** sblist_test.c 59-66: atoi of argv[1], and of argv[2] if there is one; a missing argv[1] is not modelled.  The static
    struct is zero at the start *)
Definition sblist_test (max : Z) (blocks : option Z) : out bool :=
  let st := zrepeat 0 ds in
  let* r := match blocks with None => test_each (S (Z.to_nat max)) 0 st max 1 | Some b => test_single 0 st max b 1 end in
  Ret match r with None => false | Some _ => true end.
End Sblist.

(** ** tglist_test.c *)
Section Tglist.
Variable al : nat -> M_tglist.talloc (list Z).
Definition tget (l : M_tglist.tgl (list Z)) (i : Z) : out (option (list Z)) := let* x := M_tglist.tglist_get l i in Ret (Some x).
(** tglist_test.c 34-41.  tglist_add is a macro (include/tglist.h 111-114): the call of make_struct and the second i1++ in its
    argument are not evaluated if the growth fails *)
Fixpoint tadd_loop (n : nat) (k : nat) (o : Z) (st : list Z) (l : M_tglist.tgl (list Z)) : out (list Z * M_tglist.tgl (list Z)) :=
  match n with
  | O => Ret (st, l)
  | S n =>
      let* o1 := int_r (o + 1) in
      let '(ok, l) := M_tglist.tglist_prepare_addition ds (al k) l in
      if negb (ok =? 0) then
        let* o2 := int_r (o1 + 1) in
        let* st := make_struct k o o1 st in
        let* (_, l) := M_tglist.tglist_set l st (u64 (M_tglist.tcnt l - 1)) in
        tadd_loop n (S k) o2 st l
      else tadd_loop n (S k) o1 st l
  end.
(** tglist_test.c 25-49 with blocktimes 1, 51-55 *)
Definition tglist_test (max : Z) : out bool :=
  let n := Z.to_nat (u64 max) in
  let* (_, l) := tadd_loop n 0 0 (zrepeat 0 ds) M_tglist.tglist_init in
  let* c := check_loop tget n 0 l in
  Ret match c with None => false | Some _ => true end.
End Tglist.
End Structs.

(** ** sptrlist_test.c *)
(** a size_t in memory *)
Definition word_bytes (v : Z) : list Z := int_bytes v ++ int_bytes (v / 2 ^ 32).
Definition word_of (b : list Z) : Z :=
  (znth 0 b 0 + 256 * znth 0 b 1 + 65536 * znth 0 b 2 + 16777216 * znth 0 b 3) +
  2 ^ 32 * (znth 0 b 4 + 256 * znth 0 b 5 + 65536 * znth 0 b 6 + 16777216 * znth 0 b 7).
Section Sptr.
Variable al : nat -> M_sblist.alloc.
(** sptrlist_test.c 20-24: sptrlist_add is sblist_add of the address (include/sptrlist.h 20) *)
Fixpoint ptr_add_loop (n : nat) (k : nat) (o : Z) (l : M_sblist.sbl) : out M_sblist.sbl :=
  match n with
  | O => Ret l
  | S n =>
      let* l := sadd al k l (word_bytes (u64 o)) in
      let* o := int_r (o + 1) in
      ptr_add_loop n (S k) o l
  end.
(** sptrlist_test.c 26-29: sptrlist_get reads through the pointer (sptrlist.h 19): NULL is UB.  The int o_0 is converted to
    size_t for the comparison *)
Fixpoint ptr_check_loop (n : nat) (o : Z) (l : M_sblist.sbl) : out bool :=
  match n with
  | O => Ret true
  | S n =>
      let* p := sget l o in
      match p with
      | None => UB
      | Some it =>
          let* o := int_r (o + 1) in
          if word_of it =? u64 o then ptr_check_loop n o l else Ret false
      end
  end.
(** sptrlist_test.c 16-36, the rounds from round on while round < last (10); sizeof(struct test1) is 8 *)
Fixpoint sptrlist_test (fuel : nat) (k : nat) (round last : Z) : out bool :=
  match fuel with
  | O => Fuel
  | S fuel =>
      let* m := int_r (round * 10) in
      let n := Z.to_nat (u64 m) in
      let* l := M_sblist.sblist_init 8 (u64 round) in
      let* l := ptr_add_loop n k 1 l in
      let* c := ptr_check_loop n 0 l in
      if negb c then Ret false
      else
        let* round := int_r (round + 1) in
        if round <? last then sptrlist_test fuel (k + n)%nat round last else Ret true
  end.
End Sptr.
