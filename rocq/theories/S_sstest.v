(** Specification of a client of the single size allocator: what each of its pointers stands for.  None: a null pointer,
    Some c: a block of its own that starts with the bytes c. *)
From Verif Require Import Base M_sstest.

Definition blocks := list (option (list Z)).
Definition live (st : blocks) : Z := zlen (filter (fun b => match b with Some _ => true | None => false end) st).
Definition upd (st : blocks) (i : Z) (b : option (list Z)) : blocks := ztake i st ++ b :: zdrop (i + 1) st.
Definition hspec (M E : Z) (st : blocks) (o : hop) : blocks :=
  match o with
  | HAlloc i size => match znth None st i with None => if (size <=? E) && (live st <? M) then upd st i (Some []) else st | Some _ => st end
  | HStore i data => match znth None st i with None => st | Some c => upd st i (Some (data ++ zdrop (zlen data) c)) end
  | HFree i => upd st i None
  end.
(** calls within the array and within a block *)
Definition hop_ok (E n : Z) (o : hop) : Prop :=
  match o with HAlloc i _ => 0 <= i < n | HStore i data => 0 <= i < n /\ zlen data <= E | HFree i => 0 <= i < n end.
