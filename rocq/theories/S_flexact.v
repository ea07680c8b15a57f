(** How filelist_search ends, from the answers of the allocator and what becomes of the names alone. *)
From Verif Require Import Base M_ownfl S_ownexact.

(** glob gave nothing; no list; all names done; a name without a slash; no room for a name *)
Inductive ending := NoGlob | NoList | Done | BadName | NoRoom.
(** n entries whose loss is ignored; the list has room for [room] more and grows by blk *)
Fixpoint dotted (n : nat) (blk room : Z) (s : list bool) : Z * list bool :=
  match n with
  | O => (room, s)
  | S n => if room =? 0 then dotted n blk (if granted s then blk - 1 else 0) (tl s) else dotted n blk (room - 1) s
  end.
Fixpoint named (fs : list M_ownfl.fate) (blk room : Z) (s : list bool) : ending :=
  match fs with
  | [] => Done
  | Skip :: fs => named fs blk room s
  | NoSlash :: _ => BadName
  | List :: fs => if room =? 0 then if granted s then named fs blk (blk - 1) (tl s) else NoRoom else named fs blk (room - 1) s
  end.
Definition ends (dots : nat) (fs : list M_ownfl.fate) (s : list bool) : ending :=
  if granted s then
    if granted (tl s) then let (room, s) := dotted dots (Z.max 1 (zlen fs)) 0 (tl (tl s)) in named fs (Z.max 1 (zlen fs)) room s
    else NoList
  else NoGlob.
