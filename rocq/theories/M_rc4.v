(** Model of src/strlib/rc4.c.  dst and src are offsets into one memory so that they may
    be the same or overlap; key and the local box are separate objects. *)
From Verif Require Import Base.

(** rc4.c 3: swap of two box cells (a and b in range or UB) *)
Definition swap (box : list Z) (a b : Z) : out (list Z) :=
  let* tmp := zread box a in
  let* vb := zread box b in
  let* box := zwrite box a (u8 vb) in
  zwrite box b (u8 tmp).
(** rc4.c 8 *)
Definition box0 : list Z := map Z.of_nat (seq 0 256).
(** rc4.c 9-13; n iterations left *)
Fixpoint rc4_ksa (n : nat) (box key : list Z) (x y z keylen : Z) : out (list Z) :=
  match n with
  | O => Ret box
  | S n =>
    let* bx := zread box x in
    let* k := zread key z in
    let y := u64 (y + bx + k) mod 256 in
    let* box := swap box x y in
    rc4_ksa n box key (x + 1) y (if u64 (z + 1) =? keylen then 0 else u64 (z + 1)) keylen
  end.
(** rc4.c 14-19; n iterations left *)
Fixpoint rc4_prga (n : nat) (box mem : list Z) (dst src x y z : Z) : out (list Z) :=
  match n with
  | O => Ret mem
  | S n =>
    let y := u64 (y + 1) mod 256 in
    let* by_ := zread box y in
    let z := u64 (z + by_) mod 256 in
    let* box := swap box y z in
    let* c := zread mem (src + x) in
    let* by_ := zread box y in
    let* bz := zread box z in
    let* k := zread box ((by_ + bz) mod 256) in
    let* mem := zwrite mem (dst + x) (u8 (Z.lxor c k)) in
    rc4_prga n box mem dst src (x + 1) y z
  end.
(** rc4.c 4-20 *)
Definition rc4 (mem : list Z) (dst src len : Z) (key : list Z) (keylen : Z) : out (list Z) :=
  let* box := rc4_ksa 256 box0 key 0 0 0 keylen in
  rc4_prga (Z.to_nat len) box mem dst src 0 0 0.
