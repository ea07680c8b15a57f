(** Model of src/crc32/crc32_impl.c, compiled twice: crc32.c (POLYNOMIAL 0x04C11DB7, line 44)
    and crc32c.c (CRC32_CASTAGNOLI, POLYNOMIAL 0x1EDC6F41, line 39).  [poly] selects the
    variant.  The static tables T0..T3 (lines 58-62) are an explicit list of four arrays. *)
From Verif Require Import Base.

Definition POLY32 : Z := 0x04C11DB7.
Definition POLY32C : Z := 0x1EDC6F41.

(** crc32_impl.c 68-77 *)
Definition reverse (x : Z) : Z :=
  let x := Z.lor (Z.shiftr (Z.land x 0xffff0000) 16) (u32 (Z.shiftl (Z.land x 0x0000ffff) 16)) in
  let x := Z.lor (Z.shiftr (Z.land x 0xff00ff00) 8) (u32 (Z.shiftl (Z.land x 0x00ff00ff) 8)) in
  let x := Z.lor (Z.shiftr (Z.land x 0xf0f0f0f0) 4) (u32 (Z.shiftl (Z.land x 0x0f0f0f0f) 4)) in
  let x := Z.lor (Z.shiftr (Z.land x 0xcccccccc) 2) (u32 (Z.shiftl (Z.land x 0x33333333) 2)) in
  Z.lor (Z.shiftr (Z.land x 0xaaaaaaaa) 1) (u32 (Z.shiftl (Z.land x 0x55555555) 1)).

(** crc32_impl.c 97-102: the k loop, n rounds *)
Fixpoint shift_loop (n : nat) (poly r : Z) : Z :=
  match n with
  | O => r
  | S n => shift_loop n poly (if Z.land r 0x80000000 =? 0 then u32 (Z.shiftl r 1) else Z.lxor (u32 (Z.shiftl r 1)) poly)
  end.
(** crc32_impl.c 96-104: the j loop for one i; ts = T[j], T[j+1], ... *)
Fixpoint table_row (ts : list (list Z)) (poly i r : Z) : out (list (list Z)) :=
  match ts with
  | [] => Ret []
  | t :: ts =>
      let r := shift_loop 8 poly r in
      let* t := zwrite t i (reverse r) in
      let* ts := table_row ts poly i r in
      Ret (t :: ts)
  end.
(** crc32_impl.c 94-105: the i loop, n iterations left *)
Fixpoint table_loop (n : nat) (ts : list (list Z)) (poly i : Z) : out (list (list Z)) :=
  match n with
  | O => Ret ts
  | S n => let* ts := table_row ts poly i (reverse i) in table_loop n ts poly (i + 1)
  end.
(** crc32_impl.c 84-106; the arrays have static storage, so they start as zeros *)
Definition InitTables (poly : Z) : out (list (list Z)) := table_loop 256 (repeat (zrepeat 0 256) 4) poly 0.

(** crc32_impl.c 113-120: ctx->state *)
Definition Init : Z := 0xffffffff.
(** T[j][i] *)
Definition T_at (ts : list (list Z)) (j i : Z) : out Z := let* t := zread ts j in zread t i.
(** crc32_impl.c 139-142: single bytes, n = len *)
Fixpoint update_bytes (n : nat) (ts : list (list Z)) (st : Z) (buf : list Z) (o : Z) : out Z :=
  match n with
  | O => Ret st
  | S n =>
      let* b := zread buf o in
      let* t := T_at ts 0 (Z.lxor (Z.land st 0xff) b) in
      update_bytes n ts (Z.lxor (Z.shiftr st 8) t) buf (o + 1)
  end.
(** crc32_impl.c 127-143: blocks of 4, then single bytes.  [fuel] bounds the block loop. *)
Fixpoint Update (fuel : nat) (ts : list (list Z)) (st : Z) (buf : list Z) (o len : Z) : out Z :=
  match fuel with
  | O => Fuel
  | S fuel =>
      if 4 <=? len then
        let* b3 := zread buf (o + 3) in
        let* t0 := T_at ts 0 (Z.lxor (Z.land (Z.shiftr st 24) 0xff) b3) in
        let* b2 := zread buf (o + 2) in
        let* t1 := T_at ts 1 (Z.lxor (Z.land (Z.shiftr st 16) 0xff) b2) in
        let* b1 := zread buf (o + 1) in
        let* t2 := T_at ts 2 (Z.lxor (Z.land (Z.shiftr st 8) 0xff) b1) in
        let* b0 := zread buf o in
        let* t3 := T_at ts 3 (Z.lxor (Z.land st 0xff) b0) in
        Update fuel ts (Z.lxor (Z.lxor (Z.lxor t0 t1) t2) t3) buf (o + 4) (len - 4)
      else update_bytes (Z.to_nat len) ts st buf o
  end.
(** crc32_impl.c 152-160: new state and cbuf *)
Definition Final (cbuf : list Z) (st : Z) : out (Z * list Z) :=
  let st := Z.lxor st 0xffffffff in
  let* c := zwrite cbuf 0 (Z.land st 0xff) in
  let* c := zwrite c 1 (Z.land (Z.shiftr st 8) 0xff) in
  let* c := zwrite c 2 (Z.land (Z.shiftr st 16) 0xff) in
  let* c := zwrite c 3 (Z.land (Z.shiftr st 24) 0xff) in
  Ret (st, c).
