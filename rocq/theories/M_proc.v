(** Model of src/proclib/process.c and src/proclib/daemonize.c.

    Simplification: the kernel's descriptor table of a process is a list of slots; a slot holds what the
    descriptor refers to. New descriptors are the lowest free ones (POSIX). Close-on-exec, offsets and
    access modes are left out. Every call that can fail for other reasons has a flag saying whether it
    does. Calling posix_spawn_file_actions_destroy on an object whose initialisation failed is UB. *)
From Verif Require Import Base.

(** what a descriptor refers to: read or write end of a pipe, /dev/null, anything else *)
Inductive obj := PipeR (k : Z) | PipeW (k : Z) | Null | Other (k : Z).
Definition table := list (option obj).
(** the lowest free slot, from i on *)
Fixpoint lowest (t : table) (i : Z) : option Z :=
  match t with [] => None | None :: _ => Some i | Some _ :: t => lowest t (i + 1) end.
Definition set (t : table) (fd : Z) (o : option obj) : table := ztake fd t ++ o :: zdrop (fd + 1) t.
Definition is_open (t : table) (fd : Z) : option obj :=
  if (0 <=? fd) && (fd <? zlen t) then znth None t fd else None.
(** close(2): an error on a descriptor that is not open, which the code ignores *)
Definition close (t : table) (fd : Z) : table :=
  match is_open t fd with Some _ => set t fd None | None => t end.
(** a new descriptor below lim for o *)
Definition newfd (lim : Z) (t : table) (o : obj) : option (Z * table) :=
  match lowest t 0 with Some fd => if fd <? lim then Some (fd, set t fd (Some o)) else None | None => None end.
(** pipe(2) making pipe k: both ends or none *)
Definition pipe (fails : bool) (lim : Z) (t : table) (k : Z) : option (Z * Z * table) :=
  if fails then None
  else match newfd lim t (PipeR k) with
  | Some (r, t1) => match newfd lim t1 (PipeW k) with Some (w, t2) => Some (r, w, t2) | None => None end
  | None => None
  end.

(** the file actions of posix_spawn *)
Inductive action := AClose (fd : Z) | ADup2 (fd to : Z).
(** running them in the child; a dup2 of a descriptor that is not open fails *)
Fixpoint actions (t : table) (l : list action) : option table :=
  match l with
  | [] => Some t
  | AClose fd :: l => actions (close t fd) l
  | ADup2 fd to :: l =>
    match is_open t fd with
    | Some o => if (0 <=? to) && (to <? zlen t) then actions (set t to (Some o)) l else None
    | None => None
    end
  end.

(** steps of process_open that can fail by themselves *)
Inductive step := SInit | SClose1 (i : Z) | SPipe (i : Z) | SDup2 (i : Z) | SClose2 (i j : Z) | SSpawn.
(** outcome of process_open: -1 and the parent's table; or 0, the table, p->fds and the child's table *)
Inductive opened := Failed (t : table) | Opened (t : table) (fds : list Z) (child : table).

(** process.c 37-38: the cleanup, pipes[i][j] still 0 being skipped *)
Fixpoint cleanup (t : table) (ends : list Z) : table :=
  match ends with [] => t | fd :: l => cleanup (if fd =? 0 then t else close t fd) l end.
(** process.c 19: for(i=0; i<3; ++i) if(pipe(pipes[i])) goto spawn_error; gives the ends so far and whether
    all were made; pipe i is pipe k + i of the system *)
Fixpoint pipes (fails : step -> bool) (lim : Z) (n : nat) (i k : Z) (t : table) (ends : list Z) : bool * table * list Z :=
  match n with
  | O => (true, t, ends)
  | S n =>
    match pipe (fails (SPipe i)) lim t (k + i) with
    | None => (false, t, ends)
    | Some (r, w, t) => pipes fails lim n (i + 1) k t (ends ++ [r; w])
    end
  end.
(** process.c 21: static const unsigned char pipeends[3] = {0,1,1} *)
Definition pipeends : list Z := [0; 1; 1].
(** process.c 7-47 process_open *)
Definition process_open (fails : step -> bool) (lim k : Z) (t : table) : out opened :=
  (* lines 11-12; the error path destroys p->fa *)
  if fails SInit then UB
  else if existsb (fun i => fails (SClose1 i)) [0; 1; 2] then Ret (Failed t)
  else
    let '(ok, t1, ends) := pipes fails lim 3 0 k t [] in
    if negb ok then Ret (Failed (cleanup t1 ends))
    else
      let pe i j := znth 0 ends (2 * i + j) in
      let mine i := pe i (znth 0 pipeends i) in
      let fds := map (fun i => pe i (1 - znth 0 pipeends i)) [0; 1; 2] in
      if existsb (fun i => fails (SDup2 i)) [0; 1; 2] then Ret (Failed (cleanup t1 ends))
      else if existsb (fun i => fails (SClose2 i 0) || fails (SClose2 i 1)) [0; 1; 2] then Ret (Failed (cleanup t1 ends))
      else
        let acts := map AClose [0; 1; 2] ++ map (fun i => ADup2 (mine i) i) [0; 1; 2] ++ map AClose ends in
        match actions t1 acts with
        | None => Ret (Failed (cleanup t1 ends))
        | Some child =>
          if fails SSpawn then Ret (Failed (cleanup t1 ends))
          else Ret (Opened (fold_left close (map mine [0; 1; 2]) t1) fds child)
        end.
(** process.c 50-56 process_close: status is what waitpid stores, nothing if it fails *)
Definition process_close (status : option Z) (t : table) (fds : list Z) : out (Z * table) :=
  let t := fold_left close fds t in
  match status with
  | None => UB
  | Some s => Ret (Z.shiftr (Z.land s 65280) 8, t)
  end.

(** what becomes of the process calling daemonize *)
Inductive daemon := Exited (code : Z) | Running (t : table).
(** daemonize.c 22: for (fd = getdtablesize(); fd >= 0; --fd) close(fd) *)
Fixpoint close_all (n : nat) (fd : Z) (t : table) : out table :=
  match n with
  | O => Fuel
  | S n => if fd >=? 0 then close_all n (fd - 1) (close t fd) else Ret t
  end.
(** dup(2): nothing if fd is not open or there is no room *)
Definition dup (lim : Z) (t : table) (fd : Z) : table :=
  match is_open t fd with
  | Some o => match newfd lim t o with Some (_, t) => t | None => t end
  | None => t
  end.
(** daemonize.c 11-24 daemonize: pid is the result of fork, fails whether open fails by itself, lim what
    getdtablesize gives *)
Definition daemonize (pid : Z) (fails : bool) (lim : Z) (t : table) : out daemon :=
  if pid <? 0 then Ret (Exited 1)
  else if pid >? 0 then Ret (Exited 0)
  else
    let* t := close_all (S (S (Z.to_nat lim))) lim t in
    let '(fd, t) := match (if fails then None else newfd lim t Null) with Some r => r | None => (-1, t) end in
    Ret (Running (dup lim (dup lim t fd) fd)).
