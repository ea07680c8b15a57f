(** src/fileparser/fileparser_getnextlinelength.c when read or lseek fails.  The calls made for the
    i-th piece of 1024 bytes: the read, the lseek behind it in fileparser_readline, the lseek in
    the loop; Some e: the call fails with errno e.  What is said of a call that is not made does
    not matter. *)
From Verif Require Import Base M_fileparser.

Definition faults := Z -> option Z * option Z * option Z.
(** fileparser_getnextlinelength.c 7-11; None: return -1 in line 10 *)
Fixpoint nextlen_loop_f (fuel : nat) (fs : faults) (i : Z) (p : fp) (buf : list Z) (res : Z) : out (option (Z * Z) * fp * list Z) :=
  match fuel with
  | O => Fuel
  | S fuel =>
      let '(rd, sk, sk2) := fs i in
      let* (ret, p, buf) := readline rd sk p buf in
      if ret =? -3 then
        let f := u64 (fpos p + 1024) in
        let p := mkFp f (flen p) (ffd p) (fcont p) (foff p) in
        match sk2 with
        | Some _ => Ret (None, p, buf)
        | None => nextlen_loop_f fuel fs (i + 1) (set_off p f) buf (u64 (res + 1024))
        end
      else Ret (Some (ret, res), p, buf)
  end.
(** fileparser_getnextlinelength.c 3-17; fin: the lseek in line 15 *)
Definition getnextlinelength_f (fuel : nat) (fs : faults) (fin : option Z) (p : fp) (buf : list Z) : out (Z * fp * list Z) :=
  let store := fpos p in
  let* (r, p, buf) := nextlen_loop_f fuel fs 0 p buf 0 in
  match r with
  | None => Ret (-1, p, buf)
  | Some (ret, res) =>
      if negb (ret =? 0) then Ret (-1, p, buf)
      else
        let p := mkFp store (flen p) (ffd p) (fcont p) (foff p) in
        match fin with
        | Some _ => Ret (-1, p, buf)
        | None => Ret (u64 (res + flen p), set_off p store, buf)
        end
  end.
