(** Model of src/strlib/ipv4fromstring.c, stringfromipv4.c, isnumericipv4.c. *)
From Verif Require Import Base Cstr M_num.

(** src/strlib/ipv4fromstring.c 6-14; p, start are offsets into the string *)
Fixpoint ipfs_loop (fuel : nat) (s : list Z) (p start : Z) (out4 : list Z) (outbyte : Z)
  : out (Z * list Z) :=
  match fuel with
  | O => Fuel
  | S fuel =>
      if outbyte <? 4 then
        let* c := zread s p in
        let* (out4, start, outbyte) :=
          (if (c =? 46) || (c =? 0) then
             let* v := strtoint (zdrop start s) (p - start) in
             let* out4 := zwrite out4 outbyte (u8 v) in
             Ret (out4, p + 1, outbyte + 1)
           else Ret (out4, start, outbyte)) in
        if (c =? 0) && (outbyte <? 4) then Ret (0, out4)
        else ipfs_loop fuel s (p + 1) start out4 outbyte
      else Ret (1, out4)
  end.
(** src/strlib/ipv4fromstring.c 3-16 *)
Definition ipv4fromstring (s out4 : list Z) : out (Z * list Z) :=
  ipfs_loop (S (S (length s))) s 0 0 out4 0.

(** src/strlib/stringfromipv4.c 8-18: one byte, o the output offset *)
Definition sfip_byte (b : Z) (buf : list Z) (o : Z) : out (list Z * Z) :=
  let n := b in
  let* (buf, o, n) :=
    (if 100 <=? b then
       let* buf := zwrite buf o (if 200 <=? b then 50 else 49) in
       Ret (buf, o + 1, n mod 100)
     else Ret (buf, o, n)) in
  let* (buf, o, n) :=
    (if 10 <=? b then
       let* buf := zwrite buf o (n / 10 + 48) in
       Ret (buf, o + 1, n mod 10)
     else Ret (buf, o, n)) in
  let* buf := zwrite buf o (n + 48) in
  let* buf := zwrite buf (o + 1) 46 in
  Ret (buf, o + 2).
(** src/strlib/stringfromipv4.c 7-20: k bytes left *)
Fixpoint sfip_loop (k : nat) (ip : list Z) (i : Z) (buf : list Z) (o : Z) : out (list Z * Z) :=
  match k with
  | O => Ret (buf, o)
  | S k =>
      let* b := zread ip i in
      let* (buf, o) := sfip_byte b buf o in
      sfip_loop k ip (i + 1) buf o
  end.
(** src/strlib/stringfromipv4.c 3-22 *)
Definition stringfromipv4 (ip buf : list Z) : out (list Z) :=
  let* (buf, o) := sfip_loop 4 ip 0 buf 0 in
  zwrite buf (o + -1) 0.

(** src/strlib/isnumericipv4.c 6-24; size_t counters cannot wrap (bounded by the
    string's length) *)
Fixpoint isnum_loop (fuel : nat) (s : list Z) (x n d wasdot : Z) : out Z :=
  match fuel with
  | O => Fuel
  | S fuel =>
      let* c := zread s x in
      if c =? 0 then Ret (if (d =? 3) && (4 <=? n) && (n <=? 12) then 1 else 0)
      else if c =? 46 then
        if (n =? 0) || negb (wasdot =? 0) then Ret 0
        else isnum_loop fuel s (x + 1) n (d + 1) 1
      else if (48 <=? c) && (c <=? 57) then isnum_loop fuel s (x + 1) (n + 1) d 0
      else Ret 0
  end.
(** src/strlib/isnumericipv4.c 3-27 *)
Definition isnumericipv4 (s : list Z) : out Z := isnum_loop (S (length s)) s 0 0 0 0.
