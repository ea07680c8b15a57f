(** Model of src/filelib/{normalizepath,normalizepath_cstr,getpathdiff,getfileext}.c
    (getfilename.c is in M_stringptr).

    normalizepath and normalizepath_cstr have the same switch statement; they differ in the
    loop condition, in how the last '/' of the output is searched and in an early exit.
    The flag [cs] selects the variant (true: normalizepath_cstr) in exactly these places.
    path->ptr[i] is [zread pb (po + i)]; out is the list ob with out_size os. *)
From Verif Require Import Base M_stringptr.

Inductive step := Next (i : Z) (ob : list Z) (os : Z) | Done (ob : list Z) (os : Z) | Failed.

(** normalizepath.c 21, normalizepath_cstr.c 33: while(path[i+1] == '/') i++ *)
Fixpoint skip_slashes (fuel : nat) (pb : list Z) (po i : Z) : out Z :=
  match fuel with
  | O => Fuel
  | S fuel => let* c := zread pb (po + i + 1) in if c =? 47 then skip_slashes fuel pb po (i + 1) else Ret i
  end.
(** normalizepath_cstr.c 44-45: while(--tmp > out && *tmp != '/'); tmp >= out && *tmp == '/'.
    [n] + 1 is tmp - out before the decrement.  For out_size 0 the code forms the pointer
    out - 1 and only compares it; the model does not count that as undefined behaviour. *)
Fixpoint up_loop (n : nat) (ob : list Z) : out (option Z) :=
  let* c := zread ob (Z.of_nat n) in
  match n with
  | O => Ret (if c =? 47 then Some 0 else None)
  | S m => if c =? 47 then Ret (Some (Z.of_nat n)) else up_loop m ob
  end.
Definition find_up (cs : bool) (ob : list Z) (os : Z) : out (option Z) :=
  if cs then (if os =? 0 then Ret None else up_loop (Z.to_nat (os - 1)) ob)
  else stringptr_rchr (mkSp ob 0 os) 47.
(** copy: out[out_size++] = path[i] *)
Definition np_copy (pb : list Z) (po i : Z) (ob : list Z) (os : Z) : out step :=
  let* c := zread pb (po + i) in
  let* ob := zwrite ob os c in
  Ret (Next i ob (os + 1)).
(** restore: out_size++, and normalizepath_cstr.c 59: if(!path[i]) goto done *)
Definition np_restore (cs : bool) (pb : list Z) (po i : Z) (ob : list Z) (os : Z) : out step :=
  if cs then let* c := zread pb (po + i) in Ret (if c =? 0 then Done ob (os + 1) else Next i ob (os + 1))
  else Ret (Next i ob (os + 1)).
(** normalizepath.c 19-60, normalizepath_cstr.c 31-75: one iteration; os is out_size before
    the out.size-- of the '.' case *)
Definition np_step (fuel : nat) (cs : bool) (pb : list Z) (po i : Z) (ob : list Z) (os : Z) : out step :=
  let* c := zread pb (po + i) in
  if c =? 47 then
    let* i := skip_slashes fuel pb po i in
    if os =? 0 then np_copy pb po i ob os
    else let* l := zread ob (os - 1) in
         if negb (l =? 47) then np_copy pb po i ob os else Ret (Next i ob os)
  else if c =? 46 then
    if (i =? 0) || (os =? 0) then Ret Failed
    else
      let* a := zread pb (po + i - 1) in
      let* l := (if a =? 47 then zread ob (os - 1) else Ret 0) in
      if (a =? 47) && (l =? 47) then
        let* n := zread pb (po + i + 1) in
        if n =? 46 then
          let* m := zread pb (po + i + 2) in
          if (m =? 0) || (m =? 47) then
            let* t := find_up cs ob (os - 1) in
            match t with
            | Some t => np_restore cs pb po (i + 2) ob t
            | None => Ret Failed
            end
          else np_copy pb po i ob os
        else if n =? 47 then np_restore cs pb po (i + 1) ob (os - 1)
        else if n =? 0 then np_restore cs pb po i ob (os - 1)
        else np_copy pb po i ob os
      else np_copy pb po i ob os
  else np_copy pb po i ob os.
(** the for loop: normalizepath.c 18, normalizepath_cstr.c 30; None = return 0 *)
Fixpoint np_loop (fuel : nat) (cs : bool) (pb : list Z) (po size i : Z) (ob : list Z) (os : Z) : out (option (list Z * Z)) :=
  match fuel with
  | O => Fuel
  | S f =>
      let* go := (if cs then let* c := zread pb (po + i) in Ret (negb (c =? 0)) else Ret (i <? size)) in
      if negb go then Ret (Some (ob, os))
      else
        let* s := np_step fuel cs pb po i ob os in
        match s with
        | Failed => Ret None
        | Done ob os => Ret (Some (ob, os))
        | Next i ob os => np_loop f cs pb po size (i + 1) ob os
        end
  end.
(** normalizepath.c 62-64, normalizepath_cstr.c 78-80: strip the trailing slash, terminate *)
Definition np_finish (ob : list Z) (os : Z) : out (list Z * Z) :=
  let* strip := (if 1 <? os then let* c := zread ob (os - 1) in Ret (c =? 47) else Ret false) in
  let os := if strip : bool then os - 1 else os in
  let* ob := zwrite ob os 0 in
  Ret (ob, os).
(** normalizepath.c 10-68; buf: the uninitialised char buf[PATH_MAX]; PATH_MAX = 4096 *)
Definition normalizepath (fuel : nat) (buf : list Z) (path : sp) : out (Z * sp) :=
  if sz path =? 0 then Ret (0, path)
  else
    let* c := zread (sb path) (so path) in
    if negb (c =? 47) then Ret (0, path)
    else
      let* r := np_loop fuel false (sb path) (so path) (sz path) 0 buf 0 in
      match r with
      | None => Ret (0, path)
      | Some (ob, os) =>
          let* (ob, os) := np_finish ob os in
          let* d := zreads ob 0 (os + 1) in
          let* b := zwrites (sb path) (so path) d in
          Ret (1, mkSp b (so path) os)
      end.
(** normalizepath_cstr.c 12-82 without the PSP variant; None = NULL *)
Definition normalizepath_cstr (fuel : nat) (path ob : list Z) : out (option (list Z)) :=
  let* c := zread path 0 in
  if negb (c =? 47) then Ret None
  else
    let* r := np_loop fuel true path 0 0 0 ob 0 in
    match r with
    | None => Ret None
    | Some (ob, os) => let* (ob, os) := np_finish ob os in Ret (Some ob)
    end.

(** src/filelib/getpathdiff.c 10-28: result, the two paths, workbuf.  bufs: stack buffers of
    the two normalizepath calls *)
Definition getpathdiff (fuel : nat) (buf1 buf2 : list Z) (p1 p2 : sp) (work : list Z) : out (Z * sp * sp * list Z) :=
  let* (_, p1) := normalizepath fuel buf1 p1 in
  let* (_, p2) := normalizepath fuel buf2 p2 in
  let isRoot := sz p1 =? 1 in
  let n1 := if isRoot then 0 else sz p1 in
  let res := sz p2 - n1 in
  let p1' := mkSp (sb p1) (so p1) n1 in
  if res <? 0 then Ret (-1, p1', p2, work)
  else
    let* e := (if res =? 0 then Ret (Some work)
               else
                 let* eq := memcmp0 (sb p1) (so p1) (sb p2) (so p2) n1 in
                 if eq then let* w := memcpy work 0 (sb p2) (so p2 + n1) res in Ret (Some w) else Ret None) in
    match e with
    | None => Ret (-1, p1', p2, work)
    | Some work => let* work := zwrite work res 0 in Ret (res, p1, p2, work)
    end.

(** src/filelib/getfileext.c 5: n = p - filename *)
Fixpoint ext_loop (n : nat) (name : list Z) : out Z :=
  match n with
  | O => Ret 0
  | S m => if Z.of_nat m =? 0 then Ret (Z.of_nat n)
           else let* c := zread name (Z.of_nat m) in if c =? 46 then Ret (Z.of_nat n) else ext_loop m name
  end.
(** src/filelib/getfileext.c 3-8: index of the result, None = NULL *)
Definition getFileExt (name : list Z) (fnlen : Z) : out (option Z) :=
  let* p := ext_loop (Z.to_nat fnlen) name in
  Ret (if 0 <? p then Some p else None).
