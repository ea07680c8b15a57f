(** Observation layer of the byte level tglist. *)
From Verif Require Import Base M_tglist S_tglist M_tgbytes.

Definition bexec (isz : Z) (al : balloc) (l : btg) (o : lop (list Z)) : out (lresp (list Z) * btg) :=
  match o with
  | LAdd x => let* (r, l) := b_add isz al l x in Ret (LInt r, l)
  | LIns x pos => let* (r, l) := b_insert isz al l x pos in Ret (LInt r, l)
  | LSet x pos => let* (r, l) := b_set isz l x pos in Ret (LInt r, l)
  | LDel pos => let* (r, l) := b_delete isz l pos in Ret (LInt r, l)
  | LGet pos => let* x := b_get isz l pos in Ret (LItem x, l)
  end.
Definition bhas_mem (al : balloc) : bool := match al with Some _ => true | None => false end.
Fixpoint brun (isz : Z) (l : btg) (h : list (balloc * lop (list Z))) : out (list (bool * lop (list Z) * lresp (list Z)) * btg) :=
  match h with
  | [] => Ret ([], l)
  | (al, o) :: h =>
    let* (r, l) := bexec isz al l o in
    let* (rs, l) := brun isz l h in
    Ret ((bhas_mem al, o, r) :: rs, l)
  end.
(** items of isz bytes *)
Definition item_ok (isz : Z) (o : lop (list Z)) : Prop :=
  match o with LAdd x | LIns x _ | LSet x _ => zlen x = isz | _ => True end.
(** the caller uses valid positions only *)
Fixpoint bcaller_ok (isz : Z) (l : btg) (h : list (balloc * lop (list Z))) : Prop :=
  match h with
  | [] => True
  | (al, o) :: h => item_ok isz o /\ lvalid (bcnt l) o /\ match bexec isz al l o with Ret (_, l) => bcaller_ok isz l h | _ => True end
  end.
(** what is read back: the items, the bytes of the block being theirs, then unused ones *)
Definition breads (isz : Z) (l : btg) (xs : list (list Z)) : Prop :=
  bcnt l = zlen xs /\ (forall i, 0 <= i < zlen xs -> b_get isz l i = Ret (znth [] xs i)) /\
  zlen (bmem l) = bcapa l * isz /\ bcnt l <= bcapa l.
Definition breached (isz : Z) (h : list (balloc * lop (list Z))) (l : btg) (xs : list (list Z)) : Prop :=
  1 <= isz /\ (2 * zlen h + 4) * isz < 2 ^ 64 /\ bcaller_ok isz b_init h /\
  exists rs, brun isz b_init h = Ret (rs, l) /\ lspec_run [] rs xs /\ breads isz l xs.
(** the same outcome of realloc, seen as slots of isz bytes *)
Definition slots (isz : Z) (al : balloc) : talloc (list Z) := option_map (fun junk i => tfresh junk (i * isz) isz) al.
