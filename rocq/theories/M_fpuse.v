(** Model of the life of a fileparser: src/fileparser/fileparser_open.c, fileparser_close.c and
    examples/fileparser_test.c, on the descriptor tables of M_proc.  puts(3) is libc's. *)
From Verif Require Import Base Cstr M_proc M_fileparser.

(** src/fileparser/fileparser_open.c 9-15; file: the content, None: open(2) fails with e; lim: the limit of
    descriptors, a full table being EMFILE = 24; junk: what the struct held *)
Definition fp_open (file : option (list Z)) (e lim : Z) (t : table) (junk : fp) : Z * fp * table :=
  match file with
  | None => (e, mkFp (fpos junk) (flen junk) (-1) [] 0, t)
  | Some c =>
      match newfd lim t (Other 0) with
      | None => (24, mkFp (fpos junk) (flen junk) (-1) [] 0, t)
      | Some (fd, t) => (0, mkFp 0 (flen junk) fd c 0, t)
      end
  end.
(** src/fileparser/fileparser_close.c 3-10 *)
Definition fp_close (p : fp) (t : table) : Z * fp * table :=
  (0, mkFp 0 0 (-1) (fcont p) (foff p), if 0 <? ffd p then close t (ffd p) else t).
(** fileparser_test.c 14-15; rd: read(2) fails; what is printed *)
Fixpoint print_loop (fuel : nat) (rd : option Z) (p : fp) (buf : list Z) : out (list Z * fp) :=
  match fuel with
  | O => Fuel
  | S fuel =>
      let* (r, p, buf) := readline rd None p buf in
      if r =? 0 then
        let* n := strlen buf 0 in let* s := zreads buf 0 n in
        let* (o, p) := print_loop fuel rd p buf in Ret (s ++ [10] ++ o, p)
      else Ret ([], p)
  end.
(** fileparser_test.c 8-19: the output and the descriptors afterwards.  read(2) on -1 fails with EBADF = 9 *)
Definition fp_main (fuel : nat) (file : option (list Z)) (e lim : Z) (t : table) (junk : fp) (buf : list Z) : out (list Z * table) :=
  let '(_, p, t) := fp_open file e lim t junk in
  let* (o, p) := print_loop fuel (if ffd p <? 0 then Some 9 else None) p buf in
  let '(_, _, t) := fp_close p t in Ret (o, t).
