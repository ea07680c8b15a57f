(** Models of the test programs inside the sources, compiled with TEST, TEST_MKTEMPDIR or
    FUZZER_TEST.  puts and printf write everything; what they write is a list of bytes. *)
From Verif Require Import Base Cstr M_str M_num M_hex M_mktemp M_proc M_filelib.

(** the string at s *)
Definition cstring (s : list Z) : out (list Z) := let* n := strlen s 0 in zreads s 0 n.
Definition puts (s : list Z) : out (list Z) := let* t := cstring s in Ret (t ++ [10]).
(** conv(n, buf); puts(buf); for every number *)
Fixpoint conv_run (conv : Z -> list Z -> out (list Z)) (buf : list Z) (ns : list Z) : out (list Z) :=
  match ns with
  | [] => Ret []
  | n :: ns =>
      let* buf := conv n buf in
      let* a := puts buf in
      let* b := conv_run conv buf ns in Ret (a ++ b)
  end.
(** src/strlib/itoa.c 39-50: exit code and output; buf: the local array *)
Definition itoa_main (buf : list Z) : out (Z * list Z) := let* o := conv_run itoa buf [-1337; 0; 100000; -5653452] in Ret (0, o).
(** src/strlib/utoa.c 32-41 *)
Definition utoa_main (buf : list Z) : out (Z * list Z) := let* o := conv_run utoa buf [0; 100000; 5653452] in Ret (0, o).

(** src/strlib/hex2raw.c 49-54: string, expected result, expected first bytes *)
Definition hex_calls : list (list Z * Z * list Z) :=
  [([97; 97; 98; 0], 2, [10; 171]);
   ([48; 49; 48; 50; 48; 97; 48; 98; 0], 4, [1; 2; 10; 11]);
   ([100; 101; 97; 100; 98; 101; 101; 102; 0], 4, [222; 173; 190; 239])].
(** the assertions' truth values *)
Fixpoint hex_run (buf : list Z) (cs : list (list Z * Z * list Z)) : out (list bool) :=
  match cs with
  | [] => Ret []
  | (s, n, want) :: cs =>
      let* (r, buf) := hex2raw s buf in
      let* got := zreads buf 0 (zlen want) in
      let* bs := hex_run buf cs in
      Ret ((r =? n) :: (if list_eq_dec Z.eq_dec got want then true else false) :: bs)
  end.
(** src/strlib/hex2raw.c 48-56 *)
Definition hex_main (buf : list Z) : out (list bool) := hex_run buf hex_calls.

(** "mktempdir_test" *)
Definition prefix : list Z := [109; 107; 116; 101; 109; 112; 100; 105; 114; 95; 116; 101; 115; 116; 0].
(** src/filelib/mktempdir.c 28-33: exit code, the arguments of printf, the paths given to mkdir *)
Definition mktempdir_main (rand : Z -> Z) (evs : list mkres) : out (Z * (list Z * Z) * list (list Z)) :=
  let foo := zrepeat 0 30 in
  let* (ret, foo, tr) := mktempdir rand evs prefix foo 30 in
  let* s := cstring foo in
  let* n := strlen foo 0 in
  Ret (if ret =? n then 0 else 1, (s, s32 ret), tr).

(** "bfoo\n" *)
Definition bfoo : list Z := [98; 102; 111; 111; 10; 0].
Inductive ended := Exit (code : Z) (out : list Z) | Abort (out : list Z).
(** src/proclib/process.c 63-77; buf: the local array, got: what read(2) stores (None: -1), status: what
    waitpid stores.  The result of write(2) is not used; printf of the status is left out. *)
Definition process_main (fails : M_proc.step -> bool) (lim k : Z) (t : table) (buf : list Z) (got : option (list Z)) (status : option Z) : out (ended * table) :=
  let* r := process_open fails lim k t in
  match r with
  | M_proc.Failed t => Ret (Exit 1 [], t)
  | Opened t fds _ =>
      let* buf := match got with None => Ret buf | Some g => zwrites buf 0 g end in
      let* o := puts buf in
      let* e := streq_at (S (length buf)) buf bfoo 0 0 in
      if e : bool then let* (_, t) := process_close status t fds in Ret (Exit 0 o, t)
      else Ret (Abort o, t)
  end.

(** libc fgets(s, n, f) on a file with the bytes c: None = NULL; s: the old content of the buffer *)
Fixpoint line (n : nat) (c : list Z) : list Z :=
  match n, c with
  | S n, x :: c => if x =? 10 then [10] else x :: line n c
  | _, _ => []
  end.
Definition fgets (s : list Z) (n : Z) (c : list Z) : out (option (list Z)) :=
  match line (Z.to_nat (n - 1)) c with
  | [] => Ret None
  | l => let* s := zwrites s 0 (l ++ [0]) in Ret (Some s)
  end.
(** " -> " *)
Definition arrow : list Z := [32; 45; 62; 32].
Definition shown (path out_ : list Z) : out (list Z) :=
  let* a := cstring path in let* b := cstring out_ in Ret (a ++ arrow ++ b ++ [10]).
(** src/filelib/normalizepath_cstr.c 87-110: exit code and output; args: b[1] and b[2] if given;
    file: the content of the file b[1] if it can be opened; adj: page2 - page == 4096, where page2 cannot
    be read, so that the path ends with its page *)
Definition fuzz_main (fuel : nat) (buf wb : list Z) (args : list (list Z)) (file : option (list Z)) (adj : bool) : out (Z * list Z) :=
  match args with
  | [b1; b2] =>
      let* x := zread b1 0 in
      let* e := (if x =? 88 then let* y := zread b1 1 in Ret (y =? 0) else Ret false) in
      if e : bool then
        let* r := normalizepath_cstr fuel b2 buf in
        match r with
        | None => Ret (0, [])
        | Some buf => let* o := shown b2 buf in Ret (0, o)
        end
      else Ret (1, [])
  | [_] =>
      match file with
      | None => Ret (1, [])
      | Some c =>
          let* r := fgets buf 64 c in
          match r with
          | None => Ret (1, [])
          | Some buf =>
              let* l := strlen buf 0 in
              if l =? 0 then Ret (1, [])
              else
                let* buf := zwrite buf (l - 1) 0 in
                if negb adj then Ret (1, [])
                else
                  let* p := zreads buf 0 l in
                  let* page := zwrites (zrepeat 0 4096) (4096 - l) p in
                  let ns := zdrop (4096 - l) page in
                  let* r := normalizepath_cstr fuel ns wb in
                  match r with
                  | None => Ret (0, [])
                  | Some wb => let* o := shown ns wb in Ret (0, o)
                  end
          end
      end
  | _ => Ret (1, [])
  end.
