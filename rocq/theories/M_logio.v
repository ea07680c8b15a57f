(** Model of src/logger and src/optparser/op_printall.c with a write(2) that may write less than asked
    or fail and set errno.  M_log has the same functions for a write that takes everything.
    wr: result and, for a negative result, new errno of the k-th call of write.  No other call here
    changes errno; strlen, strerror and numberToString do not. *)
From Verif Require Import Base Cstr M_stringptr M_num M_opt M_fmtuse M_log.

(** w_calls: descriptor, bytes and result of each call so far *)
Record world := mkW { w_errno : Z; w_calls : list (Z * list Z * Z) }.

Section IO.
Variable wr : nat -> Z * Z.
(** strerror(3) as a function of the number *)
Variable strerror : Z -> option (list Z).

Definition write_ (fd : Z) (x : list Z) (w : world) : world :=
  let (r, e) := wr (length (w_calls w)) in mkW (if r <? 0 then e else w_errno w) (w_calls w ++ [(fd, x, r)]).
(** log_putln.c 3-5 *)
Definition io_putln (fd : Z) (w : world) : world := write_ fd [10] w.
(** log_puts.c 4-7 *)
Definition io_puts (fd : Z) (s : option sp) (w : world) : out world :=
  match s with
  | None => Ret w
  | Some s => if sz s =? 0 then Ret w else let* x := zreads (sb s) (so s) (sz s) in Ret (write_ fd x w)
  end.
(** log_putc.c 3-9 *)
Definition io_putc (fd : Z) (c : option (list Z)) (w : world) : out world :=
  match c with
  | None => Ret w
  | Some c => let* n := strlen c 0 in io_puts fd (Some (mkSp c 0 n)) w
  end.
(** log_putd.c 5-10 *)
Definition io_putd (buf : list Z) (fd number signflag : Z) (w : world) : out world :=
  let* r := numberToString number 10 buf 0 (if negb (signflag =? 0) then 2 else 0) in
  match r with
  | None => Ret w
  | Some (cnv, buf) =>
      let* n := strlen buf cnv in
      let* x := zreads buf cnv n in Ret (write_ fd x w)
  end.
(** log_puterror.c 4-10 *)
Definition io_puterror (fd : Z) (err : option (list Z)) (w : world) : out world :=
  let no := w_errno w in
  let* w := io_putc fd err w in
  let* w := io_puts fd (Some (mkSp [58; 32; 0] 0 2)) w in
  let* w := io_putc fd (strerror no) w in
  Ret (io_putln fd w).
(** log_put.c 18-40, one argument *)
Definition io_put1 (buf : list Z) (fd : Z) (v : vario) (w : world) : out world :=
  match v with
  | VT_STRINGPTR s => io_puts fd s w
  | VT_CHAR_STAR c | VT_CONST_CHAR_STAR c =>
      match c with
      | None => Ret w
      | Some c => let* n := strlen c 0 in io_puts fd (Some (mkSp c 0 n)) w
      end
  | VT_INT x | VT_LONG x => io_putd buf fd (u64 x) 1 w
  | VT_UNSIGNED x | VT_ULONG x => io_putd buf fd (u64 x) 0 w
  | VT_other => Ret w
  end.
(** log_put.c 15-41; junk as in log_put_loop *)
Fixpoint io_put_loop (junk : nat -> list Z) (fd : Z) (args : list vario) (w : world) : out world :=
  match args with
  | [] => Ret w
  | v :: args => let* w := io_put1 (junk (length args)) fd v w in io_put_loop junk fd args w
  end.
(** log_put.c 8-44 *)
Definition io_put (junk : nat -> list Z) (fd : Z) (args : list vario) (w : world) : out world :=
  let* w := io_put_loop junk fd args w in Ret (io_putln fd w).
(** log_timestamp.c 4-10 *)
Definition io_timestamp (buffer : list Z) (fd : Z) (tim : tm) (cbuf : list Z) (w : world) : out world :=
  let* (n, b) := timestamp buffer 32 tim cbuf in io_puts fd (Some (mkSp b 0 n)) w.
(** op_printall.c 6-9 *)
Fixpoint io_printall_loop (fuel : nat) (p : op_state) (i : Z) (w : world) : out world :=
  match fuel with
  | O => Fuel
  | S fuel =>
      if i <? argc p then
        let* s := zread (argv p) i in
        let* w := io_putc 1 (Some s) w in
        io_printall_loop fuel p (i + 1) (io_putln 1 w)
      else Ret w
  end.
(** op_printall.c 4-10 *)
Definition io_printall (p : op_state) (w : world) : out world := io_printall_loop (S (length (argv p))) p 1 w.
End IO.
