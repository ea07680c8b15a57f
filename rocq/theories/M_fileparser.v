(** Model of src/fileparser/*.c on a regular file.

    The open file description is its content and offset.  read(2) on a regular file returns
    min(count, rest) bytes; lseek(2) sets the offset.  rd/sk are the fault oracles of a read
    and the lseek after it: Some e means the call fails with errno e. *)
From Verif Require Import Base.

(** include/fileparser.h 9-14, together with the kernel's view of parser->file: content and
    offset.  The member buf is kept apart ([buf] arguments). *)
Record fp := mkFp { fpos : Z; flen : Z; ffd : Z; fcont : list Z; foff : Z }.
Definition set_off (p : fp) (o : Z) : fp := mkFp (fpos p) (flen p) (ffd p) (fcont p) o.

(** read(parser->file, buf, n) *)
Definition sys_read (p : fp) (buf : list Z) (n : Z) : out (Z * fp * list Z) :=
  let data := ztake n (zdrop (foff p) (fcont p)) in
  let* buf := zwrites buf 0 data in
  Ret (zlen data, set_off p (foff p + zlen data), buf).
(** src/fileparser/fileparser_readline_userbuf.c 11-12: index of the first LF among the
    remaining [n] bytes from i, None if there is none *)
Fixpoint find_lf (n : nat) (buf : list Z) (i : Z) : out (option Z) :=
  match n with
  | O => Ret None
  | S n => let* c := zread buf i in if c =? 10 then Ret (Some i) else find_lf n buf (i + 1)
  end.
(** lseek(parser->file, parser->fpos, SEEK_SET) followed by "return r" on success *)
Definition seek_ret (sk : option Z) (p : fp) (buf : list Z) (r : Z) : out (Z * fp * list Z) :=
  match sk with Some e => Ret (e, p, buf) | None => Ret (r, set_off p (fpos p), buf) end.
(** src/fileparser/fileparser_readline_userbuf.c 3-28 *)
Definition readline_userbuf (rd sk : option Z) (p : fp) (buf : list Z) (bufsize : Z) : out (Z * fp * list Z) :=
  if ffd p =? 0 then Ret (-1, p, buf)
  else match rd with
  | Some e => Ret (e, p, buf)
  | None =>
      let* (n, p, buf) := sys_read p buf bufsize in
      if n =? 0 then Ret (-2, p, buf)
      else
        let p := mkFp (fpos p) n (ffd p) (fcont p) (foff p) in
        let* f := find_lf (Z.to_nat n) buf 0 in
        match f with
        | Some i =>
            let* buf := zwrite buf i 0 in
            seek_ret sk (mkFp (u64 (fpos p + u64 (i + 1))) i (ffd p) (fcont p) (foff p)) buf 0
        | None =>
            if n <? bufsize then
              let* buf := zwrite buf n 0 in
              Ret (0, mkFp (u64 (fpos p + u64 (n + 1))) n (ffd p) (fcont p) (foff p), buf)
            else seek_ret sk p buf (-3)
        end
  end.
(** src/fileparser/fileparser_open.c 9-15: the descriptor number the kernel gives out; len
    and buf stay uninitialised *)
Definition fileparser_open (fd junk : Z) (content : list Z) : fp := mkFp 0 junk fd content 0.
(** src/fileparser/fileparser_readline.c 3-5: sizeof(parser->buf) = 1024 *)
Definition readline (rd sk : option Z) (p : fp) (buf : list Z) := readline_userbuf rd sk p buf 1024.
(** src/fileparser/fileparser_getline.c 3-10: the bytes line->ptr[0..size) *)
Definition getline (p : fp) (buf : list Z) : out (list Z) := zreads buf 0 (flen p).

(** src/fileparser/fileparser_getnextlinelength.c 7-11, no faults *)
Fixpoint nextlen_loop (fuel : nat) (p : fp) (buf : list Z) (res : Z) : out (Z * Z * fp * list Z) :=
  match fuel with
  | O => Fuel
  | S fuel =>
      let* (ret, p, buf) := readline None None p buf in
      if ret =? -3 then
        let f := u64 (fpos p + 1024) in
        nextlen_loop fuel (mkFp f (flen p) (ffd p) (fcont p) f) buf (u64 (res + 1024))
      else Ret (ret, res, p, buf)
  end.
(** src/fileparser/fileparser_getnextlinelength.c 3-17, no faults *)
Definition getnextlinelength (fuel : nat) (p : fp) (buf : list Z) : out (Z * fp * list Z) :=
  let store := fpos p in
  let* (ret, res, p, buf) := nextlen_loop fuel p buf 0 in
  if negb (ret =? 0) then Ret (-1, p, buf)
  else Ret (u64 (res + flen p), mkFp store (flen p) (ffd p) (fcont p) store, buf).
