(** Model of src/stringptr/{stringptr_tofile,stringptr_fromfile,read_stdin_line,
    stringptr_fromchar}.c, src/stringptrlist/{stringptrlist_tofile,_fromfile,
    _add_strdup,_dup_entries,_freestrings}.c and src/filelib/getfilesize.c.

    System calls are oracles: a schedule says for each read/write how many bytes the kernel
    is willing to transfer (cut to what was asked for and what there is), or that it fails. *)
From Verif Require Import Base Cstr M_stringptr M_fileparser.

(** outcome of one read/write *)
Inductive io := Xfer (k : Z) | IoErr.
Definition clamp (k n : Z) : Z := Z.max 0 (Z.min k n).
Definition chunk (togo : Z) : Z := if 65536 <? togo then 65536 else togo.

(** src/stringptr/stringptr_tofile.c 23-28 and 30; file: what has been written so far *)
Fixpoint tofile_loop (ws : list io) (s : sp) (bufpos : Z) (file : list Z) : out (Z * list Z) :=
  if bufpos <? sz s then
    match ws with
    | [] => Fuel
    | IoErr :: _ => Ret (bufpos, file)
    | Xfer k :: ws =>
        let n := chunk (sz s - bufpos) in
        let* d := zreads (sb s) (so s + bufpos) n in
        let w := clamp k n in
        tofile_loop ws s (bufpos + w) (file ++ ztake w d)
    end
  else Ret (bufpos, file).
(** src/stringptr/stringptr_tofile.c 11-31; opened = false: open fails *)
Definition stringptr_tofile (opened : bool) (ws : list io) (s : sp) : out (Z * list Z) :=
  if opened then tofile_loop ws s 0 [] else Ret (0, []).

(** src/stringptr/stringptr_fromfile.c 25-33; content: the file while it is read *)
Fixpoint fromfile_loop (rs : list io) (size : Z) (content buf : list Z) (o bufpos : Z) : out (option (list Z)) :=
  if bufpos <? size then
    match rs with
    | [] => Fuel
    | IoErr :: _ => Ret None
    | Xfer k :: rs =>
        let d := ztake (clamp k (chunk (size - bufpos))) (zdrop bufpos content) in
        let* buf := zwrites buf (o + bufpos) d in
        fromfile_loop rs size content buf o (bufpos + zlen d)
    end
  else Ret (Some buf).
(** src/stringptr/stringptr_fromfile.c 12-37; size: what getfilesize (src/filelib/getfilesize.c
    6-11) found, 0 if stat failed *)
Definition stringptr_fromfile (size : Z) (opened : bool) (mal : option (Z -> Z)) (rs : list io) (content : list Z) : out (option sp) :=
  if size =? 0 then Ret None
  else if negb opened then Ret None
  else
    let* r := stringptr_new mal size in
    match r with
    | None => Ret None
    | Some r =>
        let* b := fromfile_loop rs size content (sb r) (so r) 0 in
        Ret (option_map (fun b => mkSp b (so r) (sz r)) b)
    end.

(** src/stringptrlist/stringptrlist_tofile.c 11-15: 0/1 and the file *)
Fixpoint spl_tofile_loop (l : list sp) (ws : list io) (file : list Z) : out (Z * list Z) :=
  match l with
  | [] => Ret (1, file)
  | s :: l =>
      match ws with
      | Xfer k :: ws =>
          let* d := zreads (sb s) (so s) (sz s) in
          let w := clamp k (sz s) in
          let file := file ++ ztake w d in
          if negb (w =? sz s) then Ret (0, file)
          else match ws with
               | Xfer k :: ws => if 1 <=? k then spl_tofile_loop l ws (file ++ [10]) else Ret (0, file)
               | IoErr :: _ => Ret (0, file)
               | [] => Fuel
               end
      | IoErr :: _ => Ret (0, file)
      | [] => Fuel
      end
  end.
(** src/stringptrlist/stringptrlist_tofile.c 6-20 *)
Definition stringptrlist_tofile (opened : bool) (l : list sp) (ws : list io) : out (Z * list Z) :=
  if opened then spl_tofile_loop l ws [] else Ret (0, []).

(** src/stringptrlist/stringptrlist_fromfile.c 9-11 with stringptrlist_add_strdup.c 3-7; the
    list is used through its specification (C01, C02): an element list; mem gives for each
    entry what strdup's malloc returns and whether sblist_add succeeds *)
Fixpoint spl_fromfile_loop (fuel : nat) (mem : list (option (Z -> Z) * bool)) (p : fp) (buf : list Z) (acc : list sp) : out (Z * list sp) :=
  match fuel with
  | O => Fuel
  | S fuel =>
      let* (r, p, buf) := readline None None p buf in
      if negb (r =? 0) then Ret (1, acc)
      else if flen p =? 0 then Ret (1, acc)
      else
        match mem with
        | [] => Fuel
        | (mal, ok) :: mem =>
            let* d := stringptr_strdup mal (mkSp buf 0 (flen p)) in
            match d with
            | None => Ret (0, acc)
            | Some b => if ok : bool then spl_fromfile_loop fuel mem p buf (acc ++ [mkSp b 0 (flen p)]) else Ret (0, acc)
            end
        end
  end.
(** src/stringptrlist/stringptrlist_fromfile.c 4-17; fd: the descriptor open returned *)
Definition stringptrlist_fromfile (fuel : nat) (mem : list (option (Z -> Z) * bool)) (fd junk : Z) (buf content : list Z) : out (Z * list sp) :=
  spl_fromfile_loop fuel mem (fileparser_open fd junk content) buf [].

(** src/stringptrlist/stringptrlist_dup_entries.c 3-14: -1 or the index of the entry whose
    strdup failed, and the list *)
Fixpoint dup_loop (mem : list (option (Z -> Z))) (i : Z) (l : list sp) {struct l} : out (Z * list sp) :=
  match l with
  | [] => Ret (-1, [])
  | s :: l =>
      match mem with
      | [] => Fuel
      | mal :: mem =>
          let* d := stringptr_strdup mal s in
          match d with
          | None => Ret (i, s :: l)
          | Some b => let* (r, l) := dup_loop mem (i + 1) l in Ret (r, mkSp b 0 (sz s) :: l)
          end
      end
  end.
Definition stringptrlist_dup_entries (mem : list (option (Z -> Z))) (l : list sp) := dup_loop mem 0 l.

(** libc fgets(buf, n, stdin), 1 <= n: at most n - 1 bytes up to and including LF; None = NULL *)
Fixpoint fgets_take (n : nat) (input : list Z) : list Z :=
  match n, input with
  | S n, c :: input => c :: (if c =? 10 then [] else fgets_take n input)
  | _, _ => []
  end.
Definition fgets (buf : list Z) (n : Z) (input : list Z) : out (option (list Z) * list Z) :=
  let d := fgets_take (Z.to_nat (n - 1)) input in
  match input with
  | [] => Ret (None, [])
  | _ => let* buf := zwrites buf 0 (d ++ [0]) in Ret (Some buf, zdrop (zlen d) input)
  end.
(** src/stringptr/read_stdin_line.c 6-17 with stringptr_fromchar.c 4-8; None: {NULL, 0} *)
Definition read_stdin_line (buf : list Z) (bufsize chomp : Z) (input : list Z) : out (option sp * list Z) :=
  let* (r, rest) := fgets buf bufsize input in
  match r with
  | None => Ret (None, rest)
  | Some b =>
      let* n := strlen b 0 in
      let line := mkSp b 0 n in
      if chomp =? 0 then Ret (Some line, rest)
      else let* (_, line) := stringptr_shiftleft line 1 in Ret (Some line, rest)
  end.
