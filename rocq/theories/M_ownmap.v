(** Which heap blocks bmap and hbmap allocate and free (what is found where is in M_bmap: here the result
    of the search is an argument).  Keys and values are pointers. *)
From Verif Require Import Base M_heap M_own.

(** bmap.h 48-55: the values are a tglist or, with BMAP_USE_TGILIST, a tgilist (index and items) *)
Inductive hvals := VTg (l : htg Z) | VTgi (idx items : htg Z).
(** bmap.h 60-70 *)
Record hbm := mkHbm { bkeys : htg Z; bvals : hvals }.
(** bmap.h 79-81 *)
Definition bm_init (tgi : bool) : hbm := mkHbm tg_init (if tgi then VTgi tg_init tg_init else VTg tg_init).
(** tgilist.h 61-67 *)
Definition tgi_add (h : heap) (idx items : htg Z) (x : Z) : out (bool * heap * htg Z * htg Z) :=
  let* (ok, h, idx) := tg_add h idx (zlen (tits items)) in
  if negb ok then Ret (false, h, idx, items)
  else
    let* (ok, h, items) := tg_add h items x in
    if ok : bool then Ret (true, h, idx, items) else Ret (false, h, tg_delete idx (zlen (tits idx) - 1), items).
(** tgilist.h 73-79 *)
Definition tgi_insert (h : heap) (idx items : htg Z) (x pos : Z) : out (bool * heap * htg Z * htg Z) :=
  let* (ok, h, items) := tg_add h items x in
  if negb ok then Ret (false, h, idx, items)
  else
    let* (ok, h, idx) := tg_insert h idx (zlen (tits items) - 1) pos in
    if ok : bool then Ret (true, h, idx, items)
    else Ret (false, h, idx, mkHtg (tbuf items) (tcapa items) (ztake (zlen (tits items) - 1) (tits items))).
Definition vals_insert (h : heap) (v : hvals) (x pos : Z) : out (bool * heap * hvals) :=
  match v with
  | VTg l => let* (ok, h, l) := tg_insert h l x pos in Ret (ok, h, VTg l)
  | VTgi i l => let* (ok, h, i, l) := tgi_insert h i l x pos in Ret (ok, h, VTgi i l)
  end.
(** tglist.h 98-99, tgilist.h 57-59 *)
Definition vals_set (v : hvals) (x pos : Z) : hvals :=
  match v with
  | VTg l => VTg (tg_set l x pos)
  | VTgi i l => VTgi i (tg_set l x (znth 0 (tits i) pos))
  end.
(** tglist.h 120-122, tgilist.h 70-71 *)
Definition vals_delete (v : hvals) (pos : Z) : hvals :=
  match v with VTg l => VTg (tg_delete l pos) | VTgi i l => VTgi (tg_delete i pos) l end.
(** bmap.h 126-133; pos: where the key belongs *)
Definition bm_insert_nocheck (h : heap) (b : hbm) (pos k v : Z) : out (Z * heap * hbm) :=
  let* (ok, h, keys) := tg_insert h (bkeys b) k pos in
  if negb ok then Ret (-1, h, mkHbm keys (bvals b))
  else
    let* (ok, h, vals) := vals_insert h (bvals b) v pos in
    if ok : bool then Ret (pos, h, mkHbm keys vals) else Ret (-1, h, mkHbm (tg_delete keys pos) vals).
(** bmap.h 137-141; found: the index bmap_find gives.  The value of the macro is not looked at here (C11) *)
Definition bm_insert (h : heap) (b : hbm) (found : option Z) (pos k v : Z) : out (heap * hbm) :=
  match found with
  | Some i => Ret (h, mkHbm (bkeys b) (vals_set (bvals b) v i))
  | None => let* (_, h, b) := bm_insert_nocheck h b pos k v in Ret (h, b)
  end.
(** bmap.h 143-147 *)
Definition bm_delete (b : hbm) (pos : Z) : hbm := mkHbm (tg_delete (bkeys b) pos) (vals_delete (bvals b) pos).
(** bmap.h 96-101; tgilist.h 50-55 *)
Definition bm_fini (h : heap) (b : hbm) (flags : Z) : out (heap * hbm) :=
  let* (h, keys) := (if Z.land flags 1 =? 0 then Ret (h, bkeys b) else tg_free_values h (bkeys b)) in
  let* (h, vals) :=
    (if Z.land flags 2 =? 0 then Ret (h, bvals b)
     else match bvals b with
          | VTg l => let* (h, l) := tg_free_values h l in Ret (h, VTg l)
          | VTgi i l => let* (h, l) := tg_free_values h l in Ret (h, VTgi i l)
          end) in
  let* h := tg_free_items h keys in
  let* h := match vals with
            | VTg l => tg_free_items h l
            | VTgi i l => let* h := tg_free_items h i in tg_free_items h l
            end in
  Ret (h, mkHbm keys vals).
(** hbmap.h 80-83 *)
Fixpoint hb_fini (h : heap) (bs : list hbm) (flags : Z) : out (heap * list hbm) :=
  match bs with
  | [] => Ret (h, [])
  | b :: bs =>
      let* (h, b) := bm_fini h b flags in
      let* (h, bs) := hb_fini h bs flags in Ret (h, b :: bs)
  end.
