(** Model of tests/tlist_test.c without arguments (mode USE_S | USE_T): the same calls on an sblist and a tlist of int. *)
From Verif Require Import Base.
From Verif Require M_sblist M_tlist.

(** an int in memory *)
Definition int_bytes (i : Z) : list Z := [i mod 256; i / 256 mod 256; i / 65536 mod 256; i / 16777216 mod 256].
Section Test.
(** what the k-th round of all loops gets from rand(), from realloc for the sblist and from malloc for the tlist *)
Variable rnd : nat -> Z.
Variable al : nat -> M_sblist.alloc.
Variable ta : nat -> option Z.
(** l, t, rounds so far *)
Record world := mkW { wl : M_sblist.sbl; wt : M_tlist.tlist (list Z); wk : nat }.
(** an assertion that fails ends the program: None *)
Definition assert {X} (b : bool) (k : out (option X)) : out (option X) := if b then k else Ret None.
Definition sz (w : world) : Z := M_sblist.cnt (wl w).
Definition tsz (w : world) : Z := M_tlist.tlist_getsize (wt w).
(** rnd % size, or 0: the int is converted to size_t *)
Definition place (size r : Z) : Z := if size =? 0 then 0 else u64 r mod size.
(** tlist_test.c 20-23 *)
Fixpoint append_loop (n : nat) (i : Z) (w : world) : out world :=
  match n with
  | O => Ret w
  | S n =>
      let* (_, l) := M_sblist.sblist_add (al (wk w)) (wl w) (int_bytes i) in
      let '(_, t) := M_tlist.tlist_append (ta (wk w)) (wt w) (int_bytes i) in
      append_loop n (i + 1) (mkW l t (S (wk w)))
  end.
(** tlist_test.c 24-28, 44-48 *)
Fixpoint insert_loop (n : nat) (i : Z) (w : world) : out world :=
  match n with
  | O => Ret w
  | S n =>
      let r := rnd (wk w) in
      let* (_, l) := M_sblist.sblist_insert (al (wk w)) (wl w) (int_bytes i) (place (sz w) r) in
      let '(_, t) := M_tlist.tlist_insert (ta (wk w)) (wt w) (place (tsz w) r) (int_bytes i) in
      insert_loop n (i + 1) (mkW l t (S (wk w)))
  end.
(** tlist_test.c 35-43 *)
Fixpoint delete_loop (n : nat) (w : world) : out (option world) :=
  match n with
  | O => Ret (Some w)
  | S n =>
      let r := rnd (wk w) in
      assert (sz w =? tsz w)
        (let* l := M_sblist.sblist_delete (wl w) (place (sz w) r) in
         let* (_, _, t) := M_tlist.tlist_delete (wt w) (place (tsz w) r) in
         delete_loop n (mkW l t (S (wk w))))
  end.
(** tlist_test.c 32-34, 50-52; a null pointer read is UB *)
Fixpoint compare_loop (n : nat) (i : Z) (w : world) : out (option unit) :=
  match n with
  | O => Ret (Some tt)
  | S n =>
      match M_sblist.sblist_get (wl w) i, snd (M_tlist.tlist_get (wt w) i) with
      | Some off, Some y =>
          let* x := zreads (M_sblist.mem (wl w)) off (M_sblist.isz (wl w)) in
          assert (if list_eq_dec Z.eq_dec y x then true else false) (compare_loop n (i + 1) w)
      | _, _ => UB
      end
  end.
Definition compare (w : world) : out (option unit) := compare_loop (Z.to_nat (sz w)) 0 w.
(** tlist_test.c 12-58; N is 20480; the output of the balance is left out.  The result: what tlist_free gives to free
    (self: the tlist itself) *)
Definition tlist_test (N self : Z) : out (option (list Z)) :=
  let* l := M_sblist.sblist_init 4 32 in
  let* w := append_loop (Z.to_nat (N / 2)) 0 (mkW l M_tlist.tlist_new 0) in
  let* w := insert_loop (Z.to_nat (N / 2)) 0 w in
  assert (sz w =? tsz w)
    (let* c := compare w in
     match c with
     | None => Ret None
     | Some _ =>
         let* d := delete_loop (Z.to_nat (N / 4)) w in
         match d with
         | None => Ret None
         | Some w =>
             let* w := insert_loop (Z.to_nat (N / 8)) 0 w in
             let* c := compare w in
             match c with
             | None => Ret None
             | Some _ => let* fr := M_tlist.tlist_free self (wt w) in Ret (Some fr)
             end
         end
     end).
End Test.
(** one call for both lists, as a client that keeps the same items in an sblist and in a tlist makes it *)
Inductive both := BAdd (v : list Z) | BIns (v : list Z) (pos : Z) | BDel (pos : Z).
(** sblist.c, tlist.c *)
Definition both_do (a : M_sblist.alloc) (m : option Z) (w : world) (o : both) : out world :=
  match o with
  | BAdd v =>
      let* (_, l) := M_sblist.sblist_add a (wl w) v in
      let '(_, t) := M_tlist.tlist_append m (wt w) v in Ret (mkW l t (S (wk w)))
  | BIns v pos =>
      let* (_, l) := M_sblist.sblist_insert a (wl w) v pos in
      let '(_, t) := M_tlist.tlist_insert m (wt w) pos v in Ret (mkW l t (S (wk w)))
  | BDel pos =>
      let* l := M_sblist.sblist_delete (wl w) pos in
      let* (_, _, t) := M_tlist.tlist_delete (wt w) pos in Ret (mkW l t (S (wk w)))
  end.
