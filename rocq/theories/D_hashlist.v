(** Observation layer of hashlist. *)
From Verif Require Import Base M_sblist M_hashlist.

(** one addition: outcomes of the two allocations, hash, value *)
Definition hadd := (bool * alloc * Z * list Z)%type.
(** run the additions; result: those that returned 0, all return values *)
Fixpoint adds_run (h : hashlist) (l : list hadd) : out (list (Z * list Z) * list Z * hashlist) :=
  match l with
  | [] => Ret ([], [], h)
  | (nw, al, hash, v) :: l =>
      let* (r, h) := hashlist_add nw al h hash v in
      let* (ds, rs, h) := adds_run h l in
      Ret ((if r =? 0 then (hash, v) :: ds else ds), r :: rs, h)
  end.
(** caller's obligations: 32-bit hashes, values of the declared size *)
Definition hadd_ok (dsz : Z) (a : hadd) : Prop := let '(_, _, hash, v) := a in 0 <= hash < 2 ^ 32 /\ zlen v = dsz.
(** neither allocation fails *)
Definition hadd_mem (a : hadd) : Prop := let '(nw, al, _, _) := a in nw = true /\ al <> None.
(** the results of n successive calls of hashlist_next *)
Fixpoint calls (n : nat) (h : hashlist) (it : hiter) : out (list (option (list Z))) :=
  match n with
  | O => Ret []
  | S n => let* (x, it) := hashlist_next h it in let* l := calls n h it in Ret (x :: l)
  end.
