(** What calls to the allocator come to, from the answers of malloc and realloc alone: granted is true,
    and every request behind the end of the list is granted. *)
From Verif Require Import Base.

Definition granted (s : list bool) : bool := hd true s.
(** a string to be copied and put into a list: stored; no memory for the copy; copied, but no room *)
Inductive fate := Stored | NoCopy | Lost.
(** n strings; the list has room for [room] more and grows by blk *)
Fixpoint fates (n : nat) (blk room : Z) (s : list bool) : list fate :=
  match n with
  | O => []
  | S n =>
      if granted s then
        if room =? 0 then
          if granted (tl s) then Stored :: fates n blk (blk - 1) (tl (tl s)) else Lost :: fates n blk 0 (tl (tl s))
        else Stored :: fates n blk (room - 1) (tl s)
      else NoCopy :: fates n blk room (tl s)
  end.
Definition is_stored (f : fate) : bool := match f with Stored => true | _ => false end.
Definition is_lost (f : fate) : bool := match f with Lost => true | _ => false end.
(** the pieces put into a new list that grows by 16: whether it ever got a block for its items, and
    the answers left *)
Fixpoint pieces (n : nat) (room : Z) (got : bool) (s : list bool) : bool * list bool :=
  match n with
  | O => (got, s)
  | S n =>
      if room =? 0 then if granted s then pieces n 15 true (tl s) else pieces n 0 got (tl s)
      else pieces n (room - 1) got s
  end.
