(** Histories of a bmap and of the buckets of an hbmap. *)
From Verif Require Import Base M_heap M_own M_ownmap.

Inductive bop := BNocheck (pos k v : Z) | BInsert (found : option Z) (pos k v : Z) | BDelete (pos : Z) | BSet (pos v : Z).
Definition bstep (h : heap) (b : hbm) (o : bop) : out (heap * hbm) :=
  match o with
  | BNocheck pos k v => let* (_, h, b) := bm_insert_nocheck h b pos k v in Ret (h, b)
  | BInsert f pos k v => bm_insert h b f pos k v
  | BDelete pos => Ret (h, bm_delete b pos)
  | BSet pos v => Ret (h, mkHbm (bkeys b) (vals_set (bvals b) v pos))
  end.
Fixpoint bruns (h : heap) (b : hbm) (ops : list bop) : out (heap * hbm) :=
  match ops with
  | [] => Ret (h, b)
  | o :: ops => let* (h, b) := bstep h b o in bruns h b ops
  end.
(** an operation on the bucket with number fst *)
Fixpoint hruns (h : heap) (bs : list hbm) (ops : list (Z * bop)) : out (heap * list hbm) :=
  match ops with
  | [] => Ret (h, bs)
  | (i, o) :: ops =>
      let* b := zread bs i in
      let* (h, b) := bstep h b o in
      let* bs := zwrite bs i b in hruns h bs ops
  end.
(** the pointers the map stores *)
Definition stored_keys (b : hbm) : list Z := tits (bkeys b).
Definition stored_vals (b : hbm) : list Z := match bvals b with VTg l => tits l | VTgi _ l => tits l end.
