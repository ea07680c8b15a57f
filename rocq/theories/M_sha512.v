(** Model of src/sha512/sha512.c. *)
From Verif Require Import Base.

(** a for loop with n iterations from i, state s *)
Fixpoint for_ {A} (n : nat) (i : Z) (body : Z -> A -> out A) (s : A) : out A :=
  match n with O => Ret s | S n => let* s := body i s in for_ n (i + 1) body s end.

(** sha512.c 27-32; x + o *)
Definition dl64 (x : list Z) (o : Z) : out Z :=
  for_ 8 0 (fun i u => let* b := zread x (o + i) in Ret (Z.lor (u64 (Z.shiftl u 8)) b)) 0.
(** sha512.c 33-37; k counts up, i = 7 - k *)
Definition ts64 (x : list Z) (o u : Z) : out (list Z) :=
  let* (x, _) := for_ 8 0 (fun k '(x, u) => let* x := zwrite x (o + (7 - k)) (u8 u) in Ret (x, Z.shiftr u 8)) (x, u) in Ret x.
(** sha512.c 38-44 *)
Definition R (x c : Z) : Z := Z.lor (Z.shiftr x c) (u64 (Z.shiftl x (64 - c))).
Definition Ch (x y z : Z) : Z := Z.lxor (Z.land x y) (Z.land (Z.lxor x 0xffffffffffffffff) z).
Definition Maj (x y z : Z) : Z := Z.lxor (Z.lxor (Z.land x y) (Z.land x z)) (Z.land y z).
Definition Sigma0 (x : Z) : Z := Z.lxor (Z.lxor (R x 28) (R x 34)) (R x 39).
Definition Sigma1 (x : Z) : Z := Z.lxor (Z.lxor (R x 14) (R x 18)) (R x 41).
Definition sigma0 (x : Z) : Z := Z.lxor (Z.lxor (R x 1) (R x 8)) (Z.shiftr x 7).
Definition sigma1 (x : Z) : Z := Z.lxor (Z.lxor (R x 19) (R x 61)) (Z.shiftr x 6).
(** sha512.c 46-68 *)
Definition K : list Z := [
  0x428a2f98d728ae22; 0x7137449123ef65cd; 0xb5c0fbcfec4d3b2f; 0xe9b5dba58189dbbc;
  0x3956c25bf348b538; 0x59f111f1b605d019; 0x923f82a4af194f9b; 0xab1c5ed5da6d8118;
  0xd807aa98a3030242; 0x12835b0145706fbe; 0x243185be4ee4b28c; 0x550c7dc3d5ffb4e2;
  0x72be5d74f27b896f; 0x80deb1fe3b1696b1; 0x9bdc06a725c71235; 0xc19bf174cf692694;
  0xe49b69c19ef14ad2; 0xefbe4786384f25e3; 0x0fc19dc68b8cd5b5; 0x240ca1cc77ac9c65;
  0x2de92c6f592b0275; 0x4a7484aa6ea6e483; 0x5cb0a9dcbd41fbd4; 0x76f988da831153b5;
  0x983e5152ee66dfab; 0xa831c66d2db43210; 0xb00327c898fb213f; 0xbf597fc7beef0ee4;
  0xc6e00bf33da88fc2; 0xd5a79147930aa725; 0x06ca6351e003826f; 0x142929670a0e6e70;
  0x27b70a8546d22ffc; 0x2e1b21385c26c926; 0x4d2c6dfc5ac42aed; 0x53380d139d95b3df;
  0x650a73548baf63de; 0x766a0abb3c77b2a8; 0x81c2c92e47edaee6; 0x92722c851482353b;
  0xa2bfe8a14cf10364; 0xa81a664bbc423001; 0xc24b8b70d0f89791; 0xc76c51a30654be30;
  0xd192e819d6ef5218; 0xd69906245565a910; 0xf40e35855771202a; 0x106aa07032bbd1b8;
  0x19a4c116b8d2d0c8; 0x1e376c085141ab53; 0x2748774cdf8eeb99; 0x34b0bcb5e19b48a8;
  0x391c0cb3c5c95a63; 0x4ed8aa4ae3418acb; 0x5b9cca4f7763e373; 0x682e6ff3d6b2b8a3;
  0x748f82ee5defb2fc; 0x78a5636f43172f60; 0x84c87814a1f0ab72; 0x8cc702081a6439ec;
  0x90befffa23631e28; 0xa4506cebde82bde9; 0xbef9a3f7b2c67915; 0xc67178f2e372532b;
  0xca273eceea26619c; 0xd186b8c721c0c207; 0xeada7dd6cde0eb1e; 0xf57d4f7fee6ed178;
  0x06f067aa72176fba; 0x0a637dc5a2c898a6; 0x113f9804bef90dae; 0x1b710b35131c471b;
  0x28db77f523047d84; 0x32caab7b40c72493; 0x3c9ebe0a15c9bebc; 0x431d67c49c100d4c;
  0x4cc5d4becb3e42b6; 0x597f299cfc657e2a; 0x5fcb6fab3ad6faec; 0x6c44198c4a475817].

(** sha512.c 77-87: one iteration of FOR(i,80).  The sums of u64 are reduced once. *)
Definition round (i : Z) (s : list Z * list Z) : out (list Z * list Z) :=
  let '(a, w) := s in
  let* b := for_ 8 0 (fun j b => let* v := zread a j in zwrite b j v) a in
  let* a7 := zread a 7 in let* a4 := zread a 4 in let* a5 := zread a 5 in let* a6 := zread a 6 in
  let* k := zread K i in let* wi := zread w (i mod 16) in
  let t := u64 (a7 + Sigma1 a4 + Ch a4 a5 a6 + k + wi) in
  let* a0 := zread a 0 in let* a1 := zread a 1 in let* a2 := zread a 2 in
  let* b := zwrite b 7 (u64 (t + Sigma0 a0 + Maj a0 a1 a2)) in
  let* b3 := zread b 3 in
  let* b := zwrite b 3 (u64 (b3 + t)) in
  let* a := for_ 8 0 (fun j a => let* v := zread b j in zwrite a ((j + 1) mod 8) v) a in
  let* w :=
    (if i mod 16 =? 15 then
       for_ 16 0 (fun j w =>
         let* v := zread w j in let* v9 := zread w ((j + 9) mod 16) in
         let* v1 := zread w ((j + 1) mod 16) in let* v14 := zread w ((j + 14) mod 16) in
         zwrite w j (u64 (v + (v9 + sigma0 v1 + sigma1 v14)))) w
     else Ret w) in
  Ret (a, w).
(** FOR(i,k) v[i] = dl64(x + o + 8*i): the k words *)
Fixpoint dl64s (k : nat) (x : list Z) (o : Z) : out (list Z) :=
  match k with O => Ret [] | S k => let* v := dl64 x o in let* l := dl64s k x (o + 8) in Ret (v :: l) end.
(** sha512.c 77-95: the while loop; m + o *)
Fixpoint hash_loop (fuel : nat) (m : list Z) (o n : Z) (z a : list Z) : out (list Z) :=
  match fuel with
  | O => Fuel
  | S fuel =>
      if 128 <=? n then
        let* w := dl64s 16 m o in
        let* (a, _) := for_ 80 0 round (a, w) in
        let* (a, z) := for_ 8 0 (fun i '(a, z) =>
          let* x := zread a i in let* y := zread z i in
          let* a := zwrite a i (u64 (x + y)) in let* x := zread a i in let* z := zwrite z i x in Ret (a, z)) (a, z) in
        hash_loop fuel m (o + 128) (n - 128) z a
      else Ret z
  end.
(** sha512.c 70-100: the new content of x; the returned n is not used *)
Definition crypto_hashblocks (fuel : nat) (x m : list Z) (o n : Z) : out (list Z) :=
  let* a := dl64s 8 x 0 in
  let z := a in
  let* z := hash_loop fuel m o n z a in
  for_ 8 0 (fun i x => let* v := zread z i in ts64 x (8 * i) v) x.
(** sha512.c 101-110 *)
Definition iv : list Z := [
  0x6a;0x09;0xe6;0x67;0xf3;0xbc;0xc9;0x08;
  0xbb;0x67;0xae;0x85;0x84;0xca;0xa7;0x3b;
  0x3c;0x6e;0xf3;0x72;0xfe;0x94;0xf8;0x2b;
  0xa5;0x4f;0xf5;0x3a;0x5f;0x1d;0x36;0xf1;
  0x51;0x0e;0x52;0x7f;0xad;0xe6;0x82;0xd1;
  0x9b;0x05;0x68;0x8c;0x2b;0x3e;0x6c;0x1f;
  0x1f;0x83;0xd9;0xab;0xfb;0x41;0xbd;0x6b;
  0x5b;0xe0;0xcd;0x19;0x13;0x7e;0x21;0x79].
(** include/sha512.h 7-10: h[64], x[256], b *)
Record ctx := mkCtx { ch : list Z; cx : list Z; cb : Z }.
(** sha512.c 112-117 *)
Definition sha512_init (c : ctx) : out ctx :=
  let* h := for_ 64 0 (fun i h => let* v := zread iv i in zwrite h i v) (ch c) in
  let* x := for_ 256 0 (fun i x => zwrite x i 0) (cx c) in
  Ret (mkCtx h x 0).
(** sha512.c 119-127; buf + o *)
Definition sha512_update (fuel : nat) (c : ctx) (buf : list Z) (o n : Z) : out ctx :=
  let* h := crypto_hashblocks fuel (ch c) buf o n in
  let b := u64 (cb c + n) in
  let r := Z.land n 127 in
  let o := o + n - r in
  let* x := for_ (Z.to_nat r) 0 (fun i x => let* v := zread buf (o + i) in zwrite x i v) (cx c) in
  Ret (mkCtx h x b).
(** sha512.c 129-137; the result is the array h of the new context *)
Definition sha512_end (c : ctx) : out ctx :=
  let n := Z.land (cb c) 127 in
  let* x := zwrite (cx c) n 128 in
  let n := 256 - 128 * (if n <? 112 then 1 else 0) in
  let* x := zwrite x (n - 9) (u8 (Z.shiftr (cb c) 61)) in
  let* x := ts64 x (n - 8) (u64 (Z.shiftl (cb c) 3)) in
  let* h := crypto_hashblocks 3 (ch c) x 0 n in
  Ret (mkCtx h x (cb c)).
