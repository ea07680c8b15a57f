(** Which blocks filelist_search and filelist_free allocate and free.  What glob returns is one block
    (gl_pathv with its strings); globfree frees it and forgets it.  What is listed is in M_filelist; here
    each name is given by what happens to it. *)
From Verif Require Import Base M_heap M_own.

(** what becomes of a name: not listed (continue); no slash (goto err); added *)
Inductive fate := Skip | NoSlash | List.
(** filelist.h: files (None: NULL) and pglob *)
Record hfl := mkHfl { ffiles : option hspl; fglob : Z }.
Definition globfree (h : heap) (g : Z) : out heap := hfree h g.
(** filelist.c 67-110; adding a name is sb_add *)
Fixpoint fl_loop (h : heap) (g : Z) (l : hspl) (fs : list fate) : out (Z * heap * hfl) :=
  match fs with
  | [] => Ret (0, h, mkHfl (Some l) g)
  | Skip :: fs => fl_loop h g l fs
  | NoSlash :: fs => let* h := globfree h g in Ret (-1, h, mkHfl (Some l) NULL)
  | List :: fs =>
      let* (ok, h, l) := sb_add h l (1, 1) in
      if ok : bool then fl_loop h g l fs
      else
        let* h := hfree h (hself l) in
        let* h := globfree h g in Ret (-1, h, mkHfl (Some l) NULL)
  end.
(** filelist.c 55-112: from the call of glob on; dots: how many of "./" and "../" are added *)
Definition fl_search (h : heap) (dots : nat) (fs : list fate) : out (Z * heap * hfl) :=
  let (g, h) := halloc h in
  if g =? NULL then Ret (1, h, mkHfl None NULL)
  else
    let (l, h) := sb_new h (Z.max 1 (zlen fs)) in
    match l with
    | None => let* h := globfree h g in Ret (-1, h, mkHfl None NULL)
    | Some l => let* (h, l) := split_adds h l dots in fl_loop h g l fs
    end.
(** filelist.c 114-119, l not NULL *)
Definition fl_free (h : heap) (f : hfl) : out heap :=
  let* h := match ffiles f with Some l => sb_free h l | None => Ret h end in
  globfree h (fglob f).
