(** Model of src/logger and src/optparser/op_printall.c.  A call of write(2) is an event (fd, bytes);
    it is assumed to write everything.  Reading past the object by write is UB. *)
From Verif Require Import Base Cstr M_stringptr M_num M_opt M_fmtuse.

Definition event : Type := Z * list Z.
(** log_putln.c 3-5 *)
Definition log_putln (fd : Z) : list event := [(fd, [10])].
(** log_puts.c 4-7; None: NULL *)
Definition log_puts (fd : Z) (s : option sp) : out (list event) :=
  match s with
  | None => Ret []
  | Some s => if sz s =? 0 then Ret [] else let* x := zreads (sb s) (so s) (sz s) in Ret [(fd, x)]
  end.
(** log_putc.c 3-9; c: the buffer, pointed to at its start, or NULL *)
Definition log_putc (fd : Z) (c : option (list Z)) : out (list event) :=
  match c with
  | None => Ret []
  | Some c => let* n := strlen c 0 in log_puts fd (Some (mkSp c 0 n))
  end.
(** log_putd.c 5-10; buf: the local buffer of 32 bytes *)
Definition log_putd (buf : list Z) (fd number signflag : Z) : out (list event) :=
  let* r := numberToString number 10 buf 0 (if negb (signflag =? 0) then 2 else 0) in
  match r with
  | None => Ret []
  | Some (cnv, buf) =>
      let* n := strlen buf cnv in
      let* x := zreads buf cnv n in Ret [(fd, x)]
  end.
(** log_puterror.c 4-10; msg: what strerror gives for the errno at the start *)
Definition log_puterror (fd : Z) (err msg : option (list Z)) : out (list event) :=
  let* a := log_putc fd err in
  let* b := log_puts fd (Some (mkSp [58; 32; 0] 0 2)) in
  let* c := log_putc fd msg in
  Ret (a ++ b ++ c ++ log_putln fd).
(** include/vario.h 6-19: the type and what ptr points to *)
Inductive vario :=
  | VT_STRINGPTR (s : option sp)
  | VT_CHAR_STAR (c : option (list Z))
  | VT_CONST_CHAR_STAR (c : option (list Z))
  | VT_INT (x : Z)
  | VT_UNSIGNED (x : Z)
  | VT_LONG (x : Z)
  | VT_ULONG (x : Z)
  | VT_other.
(** log_put.c 18-40, one argument *)
Definition log_put1 (buf : list Z) (fd : Z) (v : vario) : out (list event) :=
  match v with
  | VT_STRINGPTR s => log_puts fd s
  | VT_CHAR_STAR c | VT_CONST_CHAR_STAR c =>
      match c with
      | None => Ret []
      | Some c => let* n := strlen c 0 in log_puts fd (Some (mkSp c 0 n))
      end
  | VT_INT x | VT_LONG x => log_putd buf fd (u64 x) 1
  | VT_UNSIGNED x | VT_ULONG x => log_putd buf fd (u64 x) 0
  | VT_other => Ret []
  end.
(** log_put.c 15-41; the variable arguments up to NULL are a list.  junk: the local buffers of the
    calls of log_putd *)
Fixpoint log_put_loop (junk : nat -> list Z) (fd : Z) (args : list vario) : out (list event) :=
  match args with
  | [] => Ret []
  | v :: args =>
      let* a := log_put1 (junk (length args)) fd v in
      let* b := log_put_loop junk fd args in Ret (a ++ b)
  end.
(** log_put.c 8-44 *)
Definition log_put (junk : nat -> list Z) (fd : Z) (args : list vario) : out (list event) :=
  let* a := log_put_loop junk fd args in Ret (a ++ log_putln fd).
(** log_timestamp.c 4-10; buffer: 32 bytes *)
Definition log_timestamp (buffer : list Z) (fd : Z) (tim : tm) (cbuf : list Z) : out (list event) :=
  let* (n, b) := timestamp buffer 32 tim cbuf in log_puts fd (Some (mkSp b 0 n)).
(** op_printall.c 6-9 *)
Fixpoint printall_loop (fuel : nat) (p : op_state) (i : Z) : out (list event) :=
  match fuel with
  | O => Fuel
  | S fuel =>
      if i <? argc p then
        let* s := zread (argv p) i in
        let* a := log_putc 1 (Some s) in
        let* b := printall_loop fuel p (i + 1) in Ret (a ++ log_putln 1 ++ b)
      else Ret []
  end.
(** op_printall.c 4-10 *)
Definition op_printall (p : op_state) : out (list event) := printall_loop (S (length (argv p))) p 1.
