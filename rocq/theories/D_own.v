(** Histories of a list: any sequence of operations, and what is owned afterwards. *)
From Verif Require Import Base M_heap M_own.

Inductive sop (A : Type) := SAdd (x : A) | SInsert (x : A) (pos : Z) | SDelete (i : Z) | SSet (x : A) (i : Z) | SPop | SClear.
Arguments SAdd {A}. Arguments SInsert {A}. Arguments SDelete {A}. Arguments SSet {A}. Arguments SPop {A}. Arguments SClear {A}.
Fixpoint srun {A} (h : heap) (l : hsb A) (ops : list (sop A)) : out (heap * hsb A) :=
  match ops with
  | [] => Ret (h, l)
  | o :: ops =>
      let* (h, l) :=
        match o with
        | SAdd x => let* (_, h, l) := sb_add h l x in Ret (h, l)
        | SInsert x pos => let* (_, h, l) := sb_insert h l x pos in Ret (h, l)
        | SDelete i => Ret (h, sb_delete l i)
        | SSet x i => Ret (h, sb_set l x i)
        | SPop => Ret (h, sb_pop l)
        | SClear => sb_free_items h l
        end in
      srun h l ops
  end.
(** sblist_new, any operations, sblist_free *)
Definition slife {A} (h : heap) (blockitems : Z) (ops : list (sop A)) : out heap :=
  let (l, h) := sb_new h blockitems in
  match l with None => Ret h | Some l => let* (h, l) := srun h l ops in sb_free h l end.
(** sblist_init, any operations, sblist_free_items *)
Definition slife_static {A} (h : heap) (blockitems : Z) (ops : list (sop A)) : out heap :=
  let* (h, l) := srun h (sb_init blockitems) ops in let* (h, _) := sb_free_items h l in Ret h.
(** hashlist_new, any hashlist_add's, hashlist_free *)
Fixpoint hl_adds {A} (h : heap) (l : hhl A) (xs : list (Z * A)) : out (heap * hhl A) :=
  match xs with
  | [] => Ret (h, l)
  | (hash, x) :: xs => let* (_, h, l) := hl_add h l hash x in hl_adds h l xs
  end.
Definition hlife {A} (h : heap) (bucketcount : Z) (xs : list (Z * A)) : out heap :=
  let* (l, h) := hl_new h bucketcount in
  match l with None => Ret h | Some l => let* (h, l) := hl_adds h l xs in hl_free h l end.
(** stringptrlist_add_strdup for strings of the given sizes; the results *)
Fixpoint spl_adds (h : heap) (l : hspl) (ns : list Z) : out (list bool * heap * hspl) :=
  match ns with
  | [] => Ret ([], h, l)
  | n :: ns =>
      let* (ok, h, l) := spl_add_strdup h l n in
      let* (oks, h, l) := spl_adds h l ns in Ret (ok :: oks, h, l)
  end.
(** stringlist_add_dup n times; the results *)
Fixpoint sl_adds (h : heap) (l : hsb Z) (n : nat) : out (list Z * heap * hsb Z) :=
  match n with
  | O => Ret ([], h, l)
  | S n =>
      let* (ok, h, l) := sl_add_dup h l in
      let* (oks, h, l) := sl_adds h l n in Ret (ok :: oks, h, l)
  end.
