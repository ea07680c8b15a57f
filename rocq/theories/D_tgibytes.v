(** Observation layer of the byte level tgilist. *)
From Verif Require Import Base S_tglist M_tgbytes D_tgbytes M_endianbe M_tgibytes.

Section D.
Variables (be : bool) (n : nat) (isz : Z).
Definition bgexec (al : balloc * balloc) (x : bgi) (o : lop (list Z)) : out (lresp (list Z) * bgi) :=
  match o with
  | LAdd y => let* (r, x) := bgi_add be n isz (fst al) (snd al) x y in Ret (LInt r, x)
  | LIns y pos => let* (r, x) := bgi_insert be n isz (fst al) (snd al) x y pos in Ret (LInt r, x)
  | LSet y pos => let* (r, x) := bgi_set be n isz x y pos in Ret (LInt r, x)
  | LDel pos => let* (r, x) := bgi_delete n x pos in Ret (LInt r, x)
  | LGet pos => let* y := bgi_get be n isz x pos in Ret (LItem y, x)
  end.
Definition bboth (al : balloc * balloc) : bool := bhas_mem (fst al) && bhas_mem (snd al).
Fixpoint bgrun (x : bgi) (h : list ((balloc * balloc) * lop (list Z))) : out (list (bool * lop (list Z) * lresp (list Z)) * bgi) :=
  match h with
  | [] => Ret ([], x)
  | (al, o) :: h =>
    let* (r, x) := bgexec al x o in
    let* (rs, x) := bgrun x h in
    Ret ((bboth al, o, r) :: rs, x)
  end.
Fixpoint bgcaller_ok (x : bgi) (h : list ((balloc * balloc) * lop (list Z))) : Prop :=
  match h with
  | [] => True
  | (al, o) :: h => item_ok isz o /\ lvalid (bgi_getsize x) o /\ match bgexec al x o with Ret (_, x) => bgcaller_ok x h | _ => True end
  end.
Definition bgreads (x : bgi) (xs : list (list Z)) : Prop :=
  bgi_getsize x = zlen xs /\ forall i, 0 <= i < zlen xs -> bgi_get be n isz x i = Ret (znth [] xs i).
(** the two blocks: the bytes of the used indices, each of another value, and those of all
    values ever stored, both followed by bytes not yet used *)
Definition bglayout (x : bgi) (ks : list Z) (vs : list (list Z)) : Prop :=
  (exists junk, bmem (bidx x) = concat (map (obj be n) ks) ++ junk) /\
  (exists junk, bmem (bval x) = concat vs ++ junk) /\
  bcnt (bidx x) = zlen ks /\ bcnt (bval x) = zlen vs /\
  NoDup ks /\ (forall k, In k ks -> 0 <= k < zlen vs) /\ (forall v, In v vs -> zlen v = isz).
(** the bytes stored in the value block stay where they are, except those of the value
    overwritten by a set *)
Definition bgkept (x x' : bgi) (o : lop (list Z)) : Prop :=
  let m := bmem (bval x) in
  let m' := bmem (bval x') in
  match o with
  | LSet y pos =>
    exists k, b_get (Z.of_nat n) (bidx x) pos = Ret k /\
    m' = ztake (load be k * isz) m ++ y ++ zdrop ((load be k + 1) * isz) m
  | _ => ztake (bcnt (bval x) * isz) m' = ztake (bcnt (bval x) * isz) m /\ bcnt (bval x) <= bcnt (bval x')
  end.
End D.
