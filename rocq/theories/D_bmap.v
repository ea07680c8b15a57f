(** Observation layer of bmap and hbmap. *)
From Verif Require Import Base M_tglist D_tglist S_tglist M_bmap S_bmap.

Section D.
Context {K V St VA : Type}.
Variable vo : vops V St VA.
Variable ksz : Z.
Variable cmp : K -> K -> Z.
Variable bs : (K -> Z) -> list K -> option Z.
Variable vok : VA -> bool.

Definition bexec (ka : talloc K) (va : VA) (b : bmap K St) (o : mop K V) : out (mresp K V * bmap K St) :=
  match o with
  | MInsert k v => let* (i, b) := bmap_insert vo ksz cmp bs ka va b k v in Ret (MRInsert i, b)
  | MGet k => let* v := bmap_get vo cmp bs b k in Ret (MRVal v, b)
  | MContains k => Ret (MRBool (bmap_contains cmp bs b k), b)
  | MFind k =>
    let i := bmap_find cmp bs b k in
    if i =? -1 then Ret (MRFound None, b)
    else let* k' := bmap_getkey b i in let* v := bmap_getval vo b i in Ret (MRFound (Some (k', v)), b)
  | MDelete pos => let* k := bmap_getkey b pos in let* b := bmap_delete vo ksz b pos in Ret (MRKey k, b)
  | MSetvalue v pos => let* k := bmap_getkey b pos in let* (_, b) := bmap_setvalue vo b v pos in Ret (MRKey k, b)
  end.
Definition boths (ka : talloc K) (va : VA) : bool := has_mem ka && vok va.
Fixpoint brun (b : bmap K St) (h : list (talloc K * VA * mop K V)) : out (list (bool * mop K V * mresp K V) * bmap K St) :=
  match h with
  | [] => Ret ([], b)
  | (ka, va, o) :: h =>
    let* (r, b) := bexec ka va b o in
    let* (rs, b) := brun b h in
    Ret ((boths ka va, o, r) :: rs, b)
  end.
(** positions are valid indices *)
Definition bvalid (b : bmap K St) (o : mop K V) : Prop :=
  match o with MDelete pos | MSetvalue _ pos => 0 <= pos < bmap_getsize b | _ => True end.
Fixpoint bcaller_ok (b : bmap K St) (h : list (talloc K * VA * mop K V)) : Prop :=
  match h with
  | [] => True
  | (ka, va, o) :: h => bvalid b o /\ match bexec ka va b o with Ret (_, b) => bcaller_ok b h | _ => True end
  end.
(** the map holds exactly m: positions enumerate strictly increasing keys with their values, every key
    of m is at a position, lookup agrees *)
Definition bholds (b : bmap K St) (m : fmap K V) : Prop :=
  (forall i, 0 <= i < bmap_getsize b -> exists k v, bmap_getkey b i = Ret k /\ bmap_getval vo b i = Ret v /\ m k = Some v) /\
  (forall i j, 0 <= i < j -> j < bmap_getsize b -> exists k k', bmap_getkey b i = Ret k /\ bmap_getkey b j = Ret k' /\ cmp k k' < 0) /\
  (forall k, m k <> None -> exists i k', 0 <= i < bmap_getsize b /\ bmap_getkey b i = Ret k' /\ cmp k k' = 0) /\
  (forall k, bmap_get vo cmp bs b k = Ret (m k)).

(** ---------- hbmap ---------- *)
Variable hash : K -> Z.
Notation hb := (list (bmap K St)) (only parsing).
Definition hexec (ka : talloc K) (va : VA) (h : hb) (o : mop K V) : out (mresp K V * hb) :=
  match o with
  | MInsert k v => let* (i, h) := hbmap_insert vo ksz cmp bs hash ka va h k v in Ret (MRInsert i, h)
  | MGet k => let* v := hbmap_get vo cmp bs hash h k in Ret (MRVal v, h)
  | MContains k => let* c := hbmap_contains cmp bs hash h k in Ret (MRBool c, h)
  | MFind k =>
    let* i := hbmap_find cmp bs hash h k in
    if i =? SIZE_MAX then Ret (MRFound None, h)
    else let* k' := hbmap_getkey h i in let* v := hbmap_getval vo h i in Ret (MRFound (Some (k', v)), h)
  | MDelete it => let* k := hbmap_getkey h it in let* h := hbmap_delete vo ksz h it in Ret (MRKey k, h)
  | MSetvalue v it => let* k := hbmap_getkey h it in let* h := hbmap_setvalue vo h v it in Ret (MRKey k, h)
  end.
Fixpoint hrun (h : hb) (l : list (talloc K * VA * mop K V)) : out (list (bool * mop K V * mresp K V) * hb) :=
  match l with
  | [] => Ret ([], h)
  | (ka, va, o) :: l =>
    let* (r, h) := hexec ka va h o in
    let* (rs, h) := hrun h l in
    Ret ((boths ka va, o, r) :: rs, h)
  end.
(** iterators are valid, and an insertion finds a bucket with fewer than 2^32-1 items *)
Definition hvalid (h : hb) (o : mop K V) : Prop :=
  match o with
  | MInsert k _ => match zread h (buckindex hash h k) with Ret b => bmap_getsize b < 2 ^ 32 - 1 | _ => True end
  | MDelete it | MSetvalue _ it => 0 <= it < 2 ^ 64 /\ iter_valid h it = Ret true
  | _ => True
  end.
Fixpoint hcaller_ok (h : hb) (l : list (talloc K * VA * mop K V)) : Prop :=
  match l with
  | [] => True
  | (ka, va, o) :: l => hvalid h o /\ match hexec ka va h o with Ret (_, h) => hcaller_ok h l | _ => True end
  end.
(** the hashed map holds exactly m: valid iterators denote different keys with their values, every key of
    m has one, lookup agrees *)
Definition viter (h : hb) (it : Z) : Prop := 0 <= it < 2 ^ 64 /\ iter_valid h it = Ret true.
Definition hholds (h : hb) (m : fmap K V) : Prop :=
  (forall it, viter h it -> exists k v, hbmap_getkey h it = Ret k /\ hbmap_getval vo h it = Ret v /\ m k = Some v) /\
  (forall it it' k k', viter h it -> viter h it' -> hbmap_getkey h it = Ret k -> hbmap_getkey h it' = Ret k' -> cmp k k' = 0 -> it = it') /\
  (forall k, m k <> None -> exists it k', viter h it /\ hbmap_getkey h it = Ret k' /\ cmp k k' = 0) /\
  (forall k, hbmap_get vo cmp bs hash h k = Ret (m k)).
(** number of entries *)
Definition hsizes (h : hb) : list Z := map bmap_getsize h.
Definition htotal (h : hb) : Z := fold_right Z.add 0 (hsizes h).
End D.

(** hash functions: unsigned, equal on equal keys *)
Definition hash_ok {K} (cmp : K -> K -> Z) (hash : K -> Z) : Prop :=
  (forall k, 0 <= hash k < 2 ^ 32) /\ (forall k k', cmp k k' = 0 -> hash k = hash k').
