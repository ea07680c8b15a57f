(** Observation layer: how the calls of the model are driven by the operations
    of the specification and what the caller observes. *)
From Verif Require Import Base M_sblist S_sblist.

(** read the item a returned pointer designates *)
Definition deref (l : sbl) (p : option Z) : out (option item) :=
  match p with
  | None => Ret None
  | Some off => let* x := zreads (mem l) off (isz l) in Ret (Some x)
  end.

Definition exec (al : alloc) (l : sbl) (o : op) : out (resp * sbl) :=
  match o with
  | Add x => let* (r, l) := sblist_add al l x in Ret (RInt r, l)
  | Addi x => let* (r, l) := sblist_addi al l x in Ret (RInt r, l)
  | Set_ x pos => let* (r, l) := sblist_set l x pos in Ret (RInt r, l)
  | Insert x pos => let* (r, l) := sblist_insert al l x pos in Ret (RInt r, l)
  | Delete pos => let* l := sblist_delete l pos in Ret (RVoid, l)
  | Pop => let* (p, l) := sblist_pop l in let* x := deref l p in Ret (RItem x, l)
  end.

Definition mem_ok (al : alloc) : bool := match al with Some _ => true | None => false end.

(** run a history; the caller obeys [op_ok] with respect to the list's size *)
Fixpoint run (l : sbl) (h : list (alloc * op)) : out (list (bool * op * resp) * sbl) :=
  match h with
  | [] => Ret ([], l)
  | (al, o) :: h =>
      let* (r, l) := exec al l o in
      let* (rs, l) := run l h in
      Ret ((mem_ok al, o, r) :: rs, l)
  end.

(** the caller's obligations along the run, in terms of sblist_getsize *)
Fixpoint caller_ok (l : sbl) (h : list (alloc * op)) : Prop :=
  match h with
  | [] => True
  | (al, o) :: h =>
      op_ok (isz l) (cnt l) o /\
      match exec al l o with Ret (_, l) => caller_ok l h | _ => True end
  end.

(** what can be read back: getsize, and sblist_get at every index *)
Definition reads_as (l : sbl) (xs : list item) : Prop :=
  cnt l = zlen xs /\
  (forall i, 0 <= i < zlen xs -> exists off,
      sblist_get l i = Some off /\ zreads (mem l) off (isz l) = Ret (znth [] xs i)) /\
  (forall i, zlen xs <= i -> sblist_get l i = None).

(** states reachable from sblist_init by a well-formed history, with the list
    read back; total size representable *)
Definition reachable (itemsize blockitems : Z) (h : list (alloc * op)) (l : sbl)
    (xs : list item) : Prop :=
  exists l0 rs, sblist_init itemsize blockitems = Ret l0 /\
    1 <= itemsize /\ (1 <= blockitems \/ blockitems = 0 /\ itemsize <= 4096) /\
    (zlen h + 1 + bits l0) * itemsize < 2 ^ 64 /\
    caller_ok l0 h /\ run l0 h = Ret (rs, l) /\ reads_as l xs.
