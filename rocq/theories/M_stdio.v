(** Model of the macros of include/stdio-repl.h 38-45 (names of the macro argument as bytes). *)
From Verif Require Import Base M_format M_fmtuse M_log.

(** "stdout", "stderr" *)
Definition n_stdout : list Z := [115; 116; 100; 111; 117; 116].
Definition n_stderr : list Z := [115; 116; 100; 101; 114; 114].
(** line 41: #f == "stdout" compares the addresses of two string literals.  same: whether the compiler gives the two
    the same address, which C11 6.4.5p7 leaves open for equal literals and excludes for different ones *)
Definition repl_fd (same : list Z -> list Z -> bool) (f : list Z) : Z :=
  if same f n_stdout then 1 else if same f n_stderr then 2 else -1.
(** line 41: fprintf(f, fmt, args); a write(2) to -1 fails with EBADF and delivers nothing *)
Definition repl_fprintf (same : list Z -> list Z -> bool) (f fmt : list Z) (args : list arg) (dest cbuf : list Z) : out (list event) :=
  let* e := ulz_fprintf (repl_fd same f) fmt args dest cbuf in
  match e with None => Ret [] | Some (fd, x) => Ret (if fd <? 0 then [] else [(fd, x)]) end.
(** line 44 *)
Definition repl_perror (err msg : option (list Z)) : out (list event) := log_puterror 2 err msg.
(** line 45 *)
Definition repl_puts (c : list Z) : out (list event) := log_putc 1 (Some c).
