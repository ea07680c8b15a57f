(** Observation layer of tglist and tgilist. *)
From Verif Require Import Base M_tglist S_tglist.

Section D.
Context {A : Type}.
Definition has_mem {B} (al : talloc B) : bool := match al with Some _ => true | None => false end.

Definition texec (isz : Z) (al : talloc A) (l : tgl A) (o : lop A) : out (lresp A * tgl A) :=
  match o with
  | LAdd x => let* (r, l) := tglist_add isz al l x in Ret (LInt r, l)
  | LIns x pos => let* (r, l) := tglist_insert isz al l x pos in Ret (LInt r, l)
  | LSet x pos => let* (r, l) := tglist_set l x pos in Ret (LInt r, l)
  | LDel pos => let* (r, l) := tglist_delete isz l pos in Ret (LInt r, l)
  | LGet pos => let* x := tglist_get l pos in Ret (LItem x, l)
  end.
Fixpoint trun (isz : Z) (l : tgl A) (h : list (talloc A * lop A)) : out (list (bool * lop A * lresp A) * tgl A) :=
  match h with
  | [] => Ret ([], l)
  | (al, o) :: h =>
    let* (r, l) := texec isz al l o in
    let* (rs, l) := trun isz l h in
    Ret ((has_mem al, o, r) :: rs, l)
  end.
(** the caller uses valid positions only *)
Fixpoint tcaller_ok (isz : Z) (l : tgl A) (h : list (talloc A * lop A)) : Prop :=
  match h with
  | [] => True
  | (al, o) :: h => lvalid (tcnt l) o /\ match texec isz al l o with Ret (_, l) => tcaller_ok isz l h | _ => True end
  end.
Definition treads (l : tgl A) (xs : list A) : Prop :=
  tcnt l = zlen xs /\ forall i d, 0 <= i < zlen xs -> tglist_get l i = Ret (znth d xs i).
(** the allocated block: capacity slots, 0 or a power of two times 4 *)
Definition tcapa_ok (l : tgl A) : Prop :=
  zlen (tmem l) = tcapa l /\ tcnt l <= tcapa l /\ (tcapa l = 0 \/ exists k, 0 <= k /\ tcapa l = 4 * 2 ^ k).

(** tgilist: two allocation outcomes per operation; the stored value type's size isz, the
    index type's size ksz and modulus im *)
Definition gexec (im ksz isz : Z) (al : talloc Z * talloc A) (x : tgi A) (o : lop A) : out (lresp A * tgi A) :=
  match o with
  | LAdd y => let* (r, x) := tgilist_add im ksz isz (fst al) (snd al) x y in Ret (LInt r, x)
  | LIns y pos => let* (r, x) := tgilist_insert im ksz isz (fst al) (snd al) x y pos in Ret (LInt r, x)
  | LSet y pos => let* (r, x) := tgilist_set x y pos in Ret (LInt r, x)
  | LDel pos => let* (r, x) := tgilist_delete ksz x pos in Ret (LInt r, x)
  | LGet pos => let* y := tgilist_get x pos in Ret (LItem y, x)
  end.
Definition both_mem (al : talloc Z * talloc A) : bool := has_mem (fst al) && has_mem (snd al).
Fixpoint grun (im ksz isz : Z) (x : tgi A) (h : list ((talloc Z * talloc A) * lop A)) : out (list (bool * lop A * lresp A) * tgi A) :=
  match h with
  | [] => Ret ([], x)
  | (al, o) :: h =>
    let* (r, x) := gexec im ksz isz al x o in
    let* (rs, x) := grun im ksz isz x h in
    Ret ((both_mem al, o, r) :: rs, x)
  end.
Fixpoint gcaller_ok (im ksz isz : Z) (x : tgi A) (h : list ((talloc Z * talloc A) * lop A)) : Prop :=
  match h with
  | [] => True
  | (al, o) :: h => lvalid (tgilist_getsize x) o /\ match gexec im ksz isz al x o with Ret (_, x) => gcaller_ok im ksz isz x h | _ => True end
  end.
Definition greads (x : tgi A) (xs : list A) : Prop :=
  tgilist_getsize x = zlen xs /\ forall i d, 0 <= i < zlen xs -> tgilist_get x i = Ret (znth d xs i).
(** slot of the value store used by position i *)
Definition gslot (x : tgi A) (i : Z) : out Z := tglist_get (gidx x) i.
(** nothing stored moves from x to x' under o: values keep their content in their slot (except the
    one overwritten by set), positions keep their slots up to the shift caused by o *)
Definition slots_kept (x x' : tgi A) (o : lop A) : Prop :=
  (forall k, 0 <= k < tcnt (gval x) ->
     tglist_get (gval x') k = match o with LSet y pos => if match gslot x pos with Ret s => s =? k | _ => false end then Ret y else tglist_get (gval x) k
                                      | _ => tglist_get (gval x) k end) /\
  (forall i, 0 <= i < tgilist_getsize x ->
     match o with
     | LIns _ pos => tgilist_getsize x' = tgilist_getsize x \/ gslot x' (if i <? pos then i else i + 1) = gslot x i
     | LDel pos => i = pos \/ gslot x' (if i <? pos then i else i - 1) = gslot x i
     | _ => gslot x' i = gslot x i
     end).
End D.
