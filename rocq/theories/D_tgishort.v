(** Observation layer of tgilist with a signed index type: histories as in D_tglist. *)
From Verif Require Import Base M_tglist M_tgishort S_tglist D_tglist.
Section D.
Context {A : Type}.
Definition sexec (im ksz isz : Z) (al : talloc Z * talloc A) (x : tgi A) (o : lop A) : out (lresp A * tgi A) :=
  match o with
  | LAdd y => let* (r, x) := tgilist_add_s im ksz isz (fst al) (snd al) x y in Ret (LInt r, x)
  | LIns y pos => let* (r, x) := tgilist_insert_s im ksz isz (fst al) (snd al) x y pos in Ret (LInt r, x)
  | LSet y pos => let* (r, x) := tgilist_set x y pos in Ret (LInt r, x)
  | LDel pos => let* (r, x) := tgilist_delete ksz x pos in Ret (LInt r, x)
  | LGet pos => let* y := tgilist_get x pos in Ret (LItem y, x)
  end.
Fixpoint srun (im ksz isz : Z) (x : tgi A) (h : list ((talloc Z * talloc A) * lop A)) : out (list (bool * lop A * lresp A) * tgi A) :=
  match h with
  | [] => Ret ([], x)
  | (al, o) :: h =>
    let* (r, x) := sexec im ksz isz al x o in
    let* (rs, x) := srun im ksz isz x h in
    Ret ((both_mem al, o, r) :: rs, x)
  end.
Fixpoint scaller_ok (im ksz isz : Z) (x : tgi A) (h : list ((talloc Z * talloc A) * lop A)) : Prop :=
  match h with
  | [] => True
  | (al, o) :: h => lvalid (tgilist_getsize x) o /\ match sexec im ksz isz al x o with Ret (_, x) => scaller_ok im ksz isz x h | _ => True end
  end.
(** additions only *)
Fixpoint sadds (im ksz isz : Z) (x : tgi A) (l : list ((talloc Z * talloc A) * A)) : out (tgi A) :=
  match l with
  | [] => Ret x
  | (al, y) :: l => let* (_, x) := tgilist_add_s im ksz isz (fst al) (snd al) x y in sadds im ksz isz x l
  end.
End D.
