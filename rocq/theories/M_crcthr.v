(** Model of src/crc32/crc32_impl.c used by several threads: the accesses to the static variables T, T0..T3 one at a time,
    interleaved (sequentially consistent memory; an access that C11 calls a data race is not undefined here).
    Everything else, ctx->state and the data, belongs to one thread. *)
From Verif Require Import Base M_crc32.

(** crc32_impl.c 58-62: which of the pointers T[0..3] have been set, and T0..T3 *)
Record shared := mkSh { ptrs : list bool; tabs : list (list Z) }.
(** at program start *)
Definition start : shared := mkSh (repeat false 4) (repeat (zrepeat 0 256) 4).
(** the writes: T[j] = Tj; T[j][i] = v *)
Inductive act := Ptr (j : Z) | Store (j i v : Z).
(** lines 96-104 for one i; n: how many j are left *)
Fixpoint row_acts (n : nat) (poly i r j : Z) : list act :=
  match n with
  | O => []
  | S n => let r := shift_loop 8 poly r in Store j i (reverse r) :: row_acts n poly i r (j + 1)
  end.
(** lines 84-106 *)
Definition init_acts (poly : Z) : list act :=
  [Ptr 0; Ptr 1; Ptr 2; Ptr 3] ++ flat_map (fun i => row_acts 4 poly (Z.of_nat i) (reverse (Z.of_nat i)) 0) (seq 0 256).
Definition do_act (s : shared) (a : act) : out shared :=
  match a with
  | Ptr j => let* p := zwrite (ptrs s) j true in Ret (mkSh p (tabs s))
  | Store j i v =>
      let* p := zread (ptrs s) j in
      if p then let* t := zread (tabs s) j in let* t := zwrite t i v in let* ts := zwrite (tabs s) j t in Ret (mkSh (ptrs s) ts)
      else UB (* a null pointer *)
  end.
(** the writes by one thread while nobody else runs *)
Fixpoint alone (s : shared) (l : list act) : out shared :=
  match l with [] => Ret s | a :: l => let* s := do_act s a in alone s l end.
(** the reads of T[j][i]: what a thread does next *)
Inductive prog := Fin (st : Z) | Load (j i : Z) (k : Z -> prog).
(** lines 127-143 *)
Fixpoint update_prog (l : list Z) (st : Z) : prog :=
  match l with
  | b0 :: b1 :: b2 :: b3 :: l =>
      Load 0 (Z.lxor (Z.land (Z.shiftr st 24) 0xff) b3) (fun t0 =>
      Load 1 (Z.lxor (Z.land (Z.shiftr st 16) 0xff) b2) (fun t1 =>
      Load 2 (Z.lxor (Z.land (Z.shiftr st 8) 0xff) b1) (fun t2 =>
      Load 3 (Z.lxor (Z.land st 0xff) b0) (fun t3 => update_prog l (Z.lxor (Z.lxor (Z.lxor t0 t1) t2) t3)))))
  | b :: l => Load 0 (Z.lxor (Z.land st 0xff) b) (fun t => update_prog l (Z.lxor (Z.shiftr st 8) t))
  | [] => Fin st
  end.
Definition do_load (s : shared) (j i : Z) : out Z :=
  let* p := zread (ptrs s) j in if p then T_at (tabs s) j i else UB.
(** a thread: in InitTables with these writes to do, or in Update *)
Inductive thread := TInit (l : list act) | TCrc (p : prog).
(** what a thread is for: CRC32_InitTables n times; CRC32_Init and CRC32_Update of the data *)
Inductive work := WInit (n : nat) | WCrc (data : list Z).
Definition thread_of (poly : Z) (w : work) : thread :=
  match w with
  | WInit n => TInit (concat (repeat (init_acts poly) n))
  | WCrc data => TCrc (update_prog data Init)
  end.
Definition tstep (s : shared) (t : thread) : out (shared * thread) :=
  match t with
  | TInit [] | TCrc (Fin _) => Ret (s, t)
  | TInit (a :: l) => let* s := do_act s a in Ret (s, TInit l)
  | TCrc (Load j i k) => let* v := do_load s j i in Ret (s, TCrc (k v))
  end.
(** sched: whose turn it is *)
Fixpoint interleave (sched : list nat) (s : shared) (ts : list thread) : out (shared * list thread) :=
  match sched with
  | [] => Ret (s, ts)
  | n :: sched =>
      match nth_error ts n with
      | None => interleave sched s ts
      | Some t => let* (s, t) := tstep s t in interleave sched s (firstn n ts ++ t :: skipn (S n) ts)
      end
  end.
