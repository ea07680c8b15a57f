(** Model of src/fileparser/fileparser_readline_userbuf.c on a file whose read(2) may deliver less
    than is there (a network or FUSE file, /proc, a read cut short by a signal). *)
From Verif Require Import Base M_fileparser.

(** read(parser->file, buf, n) delivering at most k bytes *)
Definition sys_read_short (k : Z) (p : fp) (buf : list Z) (n : Z) : out (Z * fp * list Z) :=
  let data := ztake (Z.min k n) (zdrop (foff p) (fcont p)) in
  let* buf := zwrites buf 0 data in
  Ret (zlen data, set_off p (foff p + zlen data), buf).
(** src/fileparser/fileparser_readline_userbuf.c 3-28, no call fails *)
Definition readline_short (k : Z) (p : fp) (buf : list Z) (bufsize : Z) : out (Z * fp * list Z) :=
  if ffd p =? 0 then Ret (-1, p, buf)
  else
    let* (n, p, buf) := sys_read_short k p buf bufsize in
    if n =? 0 then Ret (-2, p, buf)
    else
      let p := mkFp (fpos p) n (ffd p) (fcont p) (foff p) in
      let* f := find_lf (Z.to_nat n) buf 0 in
      match f with
      | Some i =>
          let* buf := zwrite buf i 0 in
          seek_ret None (mkFp (u64 (fpos p + u64 (i + 1))) i (ffd p) (fcont p) (foff p)) buf 0
      | None =>
          if n <? bufsize then
            let* buf := zwrite buf n 0 in
            Ret (0, mkFp (u64 (fpos p + u64 (n + 1))) n (ffd p) (fcont p) (foff p), buf)
          else seek_ret None p buf (-3)
      end.
(** successive calls with the same buffer, ks: how much each read delivers at most.  What the caller sees of a
    call is its result and, if that is 0, the bytes up to and including the terminator *)
Fixpoint calls_short (ks : list Z) (p : fp) (buf : list Z) (n : Z) : out (list (Z * list Z)) :=
  match ks with
  | [] => Ret []
  | k :: ks =>
      let* (r, p, buf) := readline_short k p buf n in
      let* l := (if r =? 0 then zreads buf 0 (flen p + 1) else Ret []) in
      let* os := calls_short ks p buf n in Ret ((r, l) :: os)
  end.
