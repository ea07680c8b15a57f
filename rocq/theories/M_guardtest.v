(** Model of tests/guard_alloc_test.c.

    A store through a pointer ends the process with SIGSEGV unless the page is mapped for writing.
    fork copies the address space, so what the child writes is not seen by the parent.  The bytes
    themselves are not modelled. *)
From Verif Require Import Base M_guard.

Definition SIGSEGV : Z := 11.
(** the child of runtest, guard_alloc_test.c 27-28, seen through WIFEXITED ? 0 : WTERMSIG; a: the address written *)
Definition child (ps : Z) (v : vm) (a : Z) : Z := match v (a / ps) with ReadWrite => 0 | _ => SIGSEGV end.
(** what fork(2) and waitpid(2) do: both succeed; waitpid fails; fork fails (then waitpid(-1) returns -1 as well: there is no child) *)
Inductive sys := Works | NoWait | NoFork.
(** guard_alloc_test.c 23-34; None: the assertion in line 31 fails.  Without a child the comparison in line 31 is
    -1 == -1, and line 32 reads stat_loc, which nothing has written *)
Definition runtest (ps : Z) (v : vm) (s : sys) (a : Z) : out (option Z) :=
  match s with
  | Works => Ret (Some (child ps v a))
  | NoWait => Ret None
  | NoFork => UB
  end.
(** an assertion on the result of runtest; None: the program is aborted *)
Definition expect (want : Z) (r : out (option Z)) : out (option unit) :=
  let* r := r in Ret (match r with Some r => if r =? want then Some tt else None | None => None end).
Definition andthen (r : out (option unit)) (k : out (option vm)) : out (option vm) := let* r := r in match r with Some _ => k | None => Ret None end.
(** guard_alloc_test.c 36-51; b1, o1, b2, o2: mmap and mprotect of the two guard_alloc; None: aborted *)
Definition guard_alloc_test (ps : Z) (v : vm) (b1 : option Z) (o1 : bool) (s1 : sys) (b2 : option Z) (o2 : bool) (s2 s3 : sys) : out (option vm) :=
  let (v, mem) := guard_alloc ps b1 o1 v 80 in
  andthen (expect 0 (runtest ps v s1 (mem + 79)))
  (let v := guard_free ps v mem 80 in
   let n := ps * 3 + 80 in
   let (v, mem) := guard_alloc ps b2 o2 v n in
   andthen (expect 0 (runtest ps v s2 (mem + (ps * 3 + 79))))
   (andthen (expect SIGSEGV (runtest ps v s3 (mem + (ps * 3 + 80))))
    (Ret (Some (guard_free ps v mem n))))).
