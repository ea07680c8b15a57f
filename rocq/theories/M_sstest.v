(** Model of include/ssalloc.c with DEBUG and with the content of the blocks, and of tests/ssalloc_test.c.  M:
    SSA_MAXELEM, E: SSA_ELEMSIZE.  Pointers into the pool are offsets from its mem, NULL is None. *)
From Verif Require Import Base M_bitarray M_ssalloc.

(** ssalloc.c 96-107 with DEBUG; None: abort() *)
Definition ssa_free_dbg (M E : Z) (p : pool) (ptr : Z) : out (option pool) :=
  let idx := ssa_getidx E ptr in
  if (idx =? -1) || (M <=? idx) then Ret None
  else if idx <? 0 then UB
  else
    let* g := BA_GET (used p) idx in
    if g =? 0 then Ret None
    else
      let* u := BA_SET_FALSE (used p) idx in
      let* t := shrink (Z.to_nat (top p)) u (top p) in
      Ret (Some (mkPool u t (u64 (avail p + 1)))).
(** the pool, its mem and the client's array of pointers *)
Record heap := mkH { hp : pool; hm : list Z; hptrs : list (option Z) }.
(** ssalloc_test.c 10-13: SSINIT sets mem to 0; n pointers *)
Definition heap_init (M E n : Z) : heap := mkH (ssa_init M) (zrepeat 0 (M * E)) (zrepeat None n).
(** ptrs[i] = SSALLOC(size) *)
Definition alloc_at (M E : Z) (w : heap) (i size : Z) : out heap :=
  let* (p, r) := ssa_alloc M E (hp w) size in
  let* ps := zwrite (hptrs w) i r in
  Ret (mkH p (hm w) ps).
(** if(ptrs[i]) memcpy(ptrs[i], data, n) *)
Definition store_at (w : heap) (i : Z) (data : list Z) : out heap :=
  let* q := zread (hptrs w) i in
  match q with
  | None => Ret w
  | Some d => let* m := zwrites (hm w) d data in Ret (mkH (hp w) m (hptrs w))
  end.
(** if(ptrs[i]) SSNULL(ptrs[i]); ssalloc.c 60 *)
Definition free_at (M E : Z) (w : heap) (i : Z) : out (option heap) :=
  let* q := zread (hptrs w) i in
  match q with
  | None => Ret (Some w)
  | Some d =>
      let* r := ssa_free_dbg M E (hp w) d in
      match r with
      | None => Ret None
      | Some p => let* ps := zwrite (hptrs w) i None in Ret (Some (mkH p (hm w) ps))
      end
  end.
(** a client that allocates only into null pointers: ptrs[i] of its array at each call *)
Inductive hop := HAlloc (i size : Z) | HStore (i : Z) (data : list Z) | HFree (i : Z).
Definition hstep (M E : Z) (w : heap) (o : hop) : out (option heap) :=
  match o with
  | HAlloc i size =>
      let* q := zread (hptrs w) i in
      match q with None => let* w := alloc_at M E w i size in Ret (Some w) | Some _ => Ret (Some w) end
  | HStore i data => let* w := store_at w i data in Ret (Some w)
  | HFree i => free_at M E w i
  end.
Fixpoint hrun (M E : Z) (w : heap) (os : list hop) : out (option heap) :=
  match os with
  | [] => Ret (Some w)
  | o :: os => let* r := hstep M E w o in match r with None => Ret None | Some w => hrun M E w os end
  end.

(** tests/ssalloc_test.c *)
Definition ABC : list Z := [65; 66; 67; 68; 69; 70].
Section Test.
Variables (M E : Z).
(** the k-th rand() is odd *)
Variable rnd : nat -> bool.
Definition assert {X} (b : bool) (k : out (option X)) : out (option X) := if b then k else Ret None.
(** lines 15-19 *)
Fixpoint round1 (n : nat) (i : Z) (k : nat) (w : heap) : out (nat * heap) :=
  match n with
  | O => Ret (k, w)
  | S n =>
      if rnd k then let* w := alloc_at M E w i E in let* w := store_at w i ABC in round1 n (i + 1) (S k) w
      else round1 n (i + 1) (S k) w
  end.
(** lines 21-25 (random true) and 37-41 (random false) *)
Fixpoint fill (random : bool) (n : nat) (i : Z) (k : nat) (w : heap) : out (nat * heap) :=
  match n with
  | O => Ret (k, w)
  | S n =>
      let* q := zread (hptrs w) i in
      match q with
      | Some _ => fill random n (i + 1) k w
      | None =>
          let k' := if random then S k else k in
          if negb random || rnd k
          then let* w := alloc_at M E w i E in let* w := store_at w i ABC in fill random n (i + 1) k' w
          else fill random n (i + 1) k' w
      end
  end.
(** lines 30-32 (random true) and 68-70 (random false) *)
Fixpoint frees (random : bool) (n : nat) (i : Z) (k : nat) (w : heap) : out (option (nat * heap)) :=
  match n with
  | O => Ret (Some (k, w))
  | S n =>
      let* q := zread (hptrs w) i in
      match q with
      | None => frees random n (i + 1) k w
      | Some _ =>
          let k' := if random then S k else k in
          if negb random || rnd k
          then let* r := free_at M E w i in match r with None => Ret None | Some w => frees random n (i + 1) k' w end
          else frees random n (i + 1) k' w
      end
  end.
(** lines 46-49 *)
Fixpoint check_data (n : nat) (i : Z) (w : heap) : out (option unit) :=
  match n with
  | O => Ret (Some tt)
  | S n =>
      let* q := zread (hptrs w) i in
      match q with
      | None => Ret None
      | Some d => let* s := zreads (hm w) d 6 in assert (if list_eq_dec Z.eq_dec s ABC then true else false) (check_data n (i + 1) w)
      end
  end.
(** lines 51-54, 62-66, 75-78: the bits but bit skip are v *)
Fixpoint check_bits (v skip : Z) (n : nat) (i : Z) (w : heap) : out (option unit) :=
  match n with
  | O => Ret (Some tt)
  | S n =>
      if i =? skip then check_bits v skip n (i + 1) w
      else let* g := BA_GET (used (hp w)) i in assert (g =? v) (check_bits v skip n (i + 1) w)
  end.
(** lines 10-81; c is 46, M 256, E 6 *)
Definition ssalloc_test (c : Z) : out (option unit) :=
  let n := Z.to_nat M in
  let* (k, w) := round1 n 0 0 (heap_init M E M) in
  let* (k, w) := fill true n 0 k w in
  let* r := frees true n 0 k w in
  match r with
  | None => Ret None
  | Some (k, w) =>
      let* (k, w) := fill false n 0 k w in
      assert (avail (hp w) =? 0) (assert (top (hp w) =? M)
        (let* r := check_data n 0 w in
         match r with
         | None => Ret None
         | Some _ =>
             let* r := check_bits 1 (-1) n 0 w in
             match r with
             | None => Ret None
             | Some _ =>
                 let* q := zread (hptrs w) c in
                 match q with
                 | None => UB
                 | Some d =>
                     let idx := ssa_getidx E d in
                     assert (0 <=? idx) (assert (idx <? M)
                       (let* r := free_at M E w c in
                        match r with
                        | None => Ret None
                        | Some w =>
                            assert (avail (hp w) =? 1)
                              (let* r := check_bits 1 idx n 0 w in
                               match r with
                               | None => Ret None
                               | Some _ =>
                                   let* r := frees false n 0 k w in
                                   match r with
                                   | None => Ret None
                                   | Some (_, w) => assert (avail (hp w) =? M) (assert (top (hp w) =? 0) (check_bits 0 (-1) n 0 w))
                                   end
                               end)
                        end))
                 end
             end
         end))
  end.
End Test.
