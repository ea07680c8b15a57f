(** Specification of sblist: a mathematical list of items, an item being a byte
    string.  Uses nothing of the model. *)
From Verif Require Import Base.

Notation item := (list Z) (only parsing).

(** What a caller asks for; [ok] tells whether the allocator has memory when
    asked. *)
Inductive op :=
| Add (x : item) | Addi (x : item) | Set_ (x : item) (pos : Z)
| Insert (x : item) (pos : Z) | Delete (pos : Z) | Pop.

(** What a caller sees. *)
Inductive resp :=
| RInt (n : Z)             (* returned int / size_t *)
| RVoid
| RItem (x : option item). (* pointer: the bytes it points to, or NULL *)

(** [spec mem_ok l o r l']: with list l, operation o may answer r leaving l'.
    [mem_ok] = the allocator does not fail; only then is success guaranteed. *)
Inductive spec (mem_ok : bool) : list item -> op -> resp -> list item -> Prop :=
| SpAdd l x : spec mem_ok l (Add x) (RInt 1) (l ++ [x])
| SpAddOom l x : mem_ok = false -> spec mem_ok l (Add x) (RInt 0) l
| SpAddi l x : spec mem_ok l (Addi x) (RInt (zlen l)) (l ++ [x])
| SpAddiOom l x : mem_ok = false -> spec mem_ok l (Addi x) (RInt (2 ^ 64 - 1)) l
| SpSet p x q y : spec mem_ok (p ++ x :: q) (Set_ y (zlen p)) (RInt 1) (p ++ y :: q)
| SpSetNo l y pos : zlen l <= pos -> spec mem_ok l (Set_ y pos) (RInt 0) l
| SpIns p q y : spec mem_ok (p ++ q) (Insert y (zlen p)) (RInt 1) (p ++ y :: q)
| SpInsOom l y pos : mem_ok = false -> spec mem_ok l (Insert y pos) (RInt 0) l
| SpDel p x q : spec mem_ok (p ++ x :: q) (Delete (zlen p)) RVoid (p ++ q)
| SpDelNo l pos : zlen l <= pos -> spec mem_ok l (Delete pos) RVoid l
| SpPop l x : spec mem_ok (l ++ [x]) Pop (RItem (Some x)) l
| SpPopNo : spec mem_ok [] Pop (RItem None) [].

(** history: operations with the allocator's mood and the answers *)
Inductive spec_run : list item -> list (bool * op * resp) -> list item -> Prop :=
| SrNil l : spec_run l [] l
| SrCons l b o r l' h l'' :
    spec b l o r l' -> spec_run l' h l'' -> spec_run l ((b, o, r) :: h) l''.

(** what the caller must respect: items of the declared size, size_t positions,
    insert only up to the end.  [n] is the current length. *)
Definition op_ok (isz n : Z) (o : op) : Prop :=
  match o with
  | Add x | Addi x => zlen x = isz
  | Set_ x pos => zlen x = isz /\ 0 <= pos < 2 ^ 64
  | Insert x pos => zlen x = isz /\ 0 <= pos <= n
  | Delete pos => 0 <= pos < 2 ^ 64
  | Pop => True
  end.

(** comparators *)
Definition total_preorder (cmp : item -> item -> Z) : Prop :=
  (forall x y, cmp x y < 0 <-> 0 < cmp y x) /\
  (forall x y z, cmp x y <= 0 -> cmp y z <= 0 -> cmp x z <= 0).

(** every item is not greater than each later one *)
Definition sorted (cmp : item -> item -> Z) (l : list item) : Prop :=
  forall i j, 0 <= i <= j -> j < zlen l -> cmp (znth [] l i) (znth [] l j) <= 0.

(** result of filtering while threading the deletion decision *)
Fixpoint kept {S} (dec : S -> item -> bool * S) (s : S) (l : list item) : list item :=
  match l with
  | [] => []
  | x :: l => let '(d, s) := dec s x in if d then kept dec s l else x :: kept dec s l
  end.
Fixpoint dec_end {S} (dec : S -> item -> bool * S) (s : S) (l : list item) : S :=
  match l with [] => s | x :: l => dec_end dec (snd (dec s x)) l end.

(** little-endian value of a byte string (a stored pointer) *)
Fixpoint le_val (l : list Z) : Z :=
  match l with [] => 0 | b :: l => b + 256 * le_val l end.

(** consecutive items of a data block *)
Fixpoint chunks (n : nat) (isz : Z) (data : list Z) : list item :=
  match n with
  | O => []
  | S n => ztake isz data :: chunks n isz (zdrop isz data)
  end.
