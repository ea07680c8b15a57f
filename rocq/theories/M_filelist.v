(** Model of src/filelist/filelist.c.

    glob(3) is an oracle: from the pattern and the flags it gives the result and gl_pathv, whose
    strings are buffers.  stringptrlist: the list of its items (C19-C27 are about the real one), with
    an oracle for the success of stringptrlist_new and of each stringptrlist_add.  What is freed is
    not modelled. *)
From Verif Require Import Base Cstr M_stringptr.

Definition PATH_MAX := 4096.
Definition FLF_INCLUDE_DOT := 1.
Definition FLF_INCLUDE_DOT_DOT := 2.
Definition FLF_EXCLUDE_PATH := 4.
Definition FLF_INCLUDE_HIDDEN := 8.
Definition GLOB_MARK := 2.
Definition GLOB_PERIOD := 128.
Definition has (flags f : Z) : bool := negb (Z.land flags f =? 0).
(** filelist.c 12-27: out is the start of buf; None: (size_t) -1 *)
Fixpoint escape_loop (fuel : nat) (buf : list Z) (out_size : Z) (s : list Z) (pos in_size : Z) : out (option Z * list Z) :=
  match fuel with
  | O => Fuel
  | S fuel =>
      if negb (in_size =? 0) && (out_size + 2 <? PATH_MAX) then
        let* c := zread s pos in
        let* (buf, out_size) := (if (c =? 91) || (c =? 63) || (c =? 42) then let* buf := zwrite buf out_size 92 in Ret (buf, out_size + 1) else Ret (buf, out_size)) in
        let* buf := zwrite buf out_size c in
        escape_loop fuel buf (out_size + 1) s (pos + 1) (in_size - 1)
      else if negb (in_size =? 0) || (PATH_MAX <=? out_size) then Ret (None, buf)
      else Ret (Some out_size, buf)
  end.
Definition cpystr_escape (buf : list Z) (s : list Z) (pos in_size : Z) : out (option Z * list Z) :=
  escape_loop (S (Z.to_nat in_size)) buf 0 s pos in_size.
(** filelist.c 71-105: one name.  None: not listed; Some None: goto err; Some (Some s): added *)
Definition list_name (flags : Z) (b : list Z) : out (option (option sp)) :=
  let* n := strlen b 0 in
  if n =? 0 then Ret None
  else if negb (has flags FLF_EXCLUDE_PATH) then
    let* skip :=
      (if has flags FLF_INCLUDE_HIDDEN && (3 <=? n) then
         let* c1 := zread b (n - 1) in
         let* c2 := zread b (n - 2) in
         if (c1 =? 47) && (c2 =? 46) then
           let* c3 := zread b (n - 3) in
           if negb (has flags FLF_INCLUDE_DOT) && (c3 =? 47) then Ret true
           else if negb (has flags FLF_INCLUDE_DOT_DOT) && (4 <=? n) && (c3 =? 46) then let* c4 := zread b (n - 4) in Ret (c4 =? 47)
           else Ret false
         else Ret false
       else Ret false) in
    Ret (if skip : bool then None else Some (Some (mkSp b 0 n)))
  else
    let* c1 := zread b (n - 1) in
    let isdir := c1 =? 47 in
    let* (b, n) := (if isdir then let* b := zwrite b (n - 1) 0 in Ret (b, n - 1) else Ret (b, n)) in
    let* o := stringptr_rchr (mkSp b 0 n) 47 in
    match o with
    | None => Ret (Some None)
    | Some o =>
        let o := o + 1 in
        let* (b, n) := (if isdir then let* b := zwrite b n 47 in Ret (b, n + 1) else Ret (b, n)) in
        let sz := n - o in
        let* c0 := (if has flags FLF_INCLUDE_HIDDEN then zread b o else Ret 0) in
        let* skip :=
          (if c0 =? 46 then
             let* dot := (if negb (has flags FLF_INCLUDE_DOT) && (sz =? 2) then let* c := zread b (o + 1) in Ret (c =? 47) else Ret false) in
             if dot : bool then Ret true
             else if negb (has flags FLF_INCLUDE_DOT_DOT) && (sz =? 3) then
               let* c := zread b (o + 1) in
               let* d := zread b (o + 2) in Ret ((c =? 46) && (d =? 47))
             else Ret false
           else Ret false) in
        Ret (if skip : bool then None else Some (Some (mkSp b o sz)))
    end.
(** filelist.c 67-110; k: how many calls of stringptrlist_add were made *)
Fixpoint list_loop (flags : Z) (add : Z -> bool) (pathv : list (list Z)) (k : Z) (files : list sp) : out (Z * list sp) :=
  match pathv with
  | [] => Ret (0, files)
  | b :: pathv =>
      let* r := list_name flags b in
      match r with
      | None => list_loop flags add pathv k files
      | Some None => Ret (-1, [])
      | Some (Some s) => if add k then list_loop flags add pathv (k + 1) (files ++ [s]) else Ret (-1, [])
      end
  end.
(** filelist.c 33-112, l not NULL; dir, mask: None is NULL; buf: the local buffer of PATH_MAX bytes.
    The result: the returned number, l->files and the call of glob, if it is made *)
Definition filelist_search (glob : list Z -> Z -> Z * list (list Z)) (new : bool) (add : Z -> bool) (buf : list Z) (dir mask : option sp) (flags : Z) : out (Z * list sp * option (list Z * Z)) :=
  let defaultflags := if has flags FLF_INCLUDE_HIDDEN then GLOB_PERIOD else 0 in
  let dot := mkSp [46; 47; 0] 0 2 in
  let dir := match dir with None => dot | Some d => if sz d =? 0 then dot else d end in
  match mask with
  | None => Ret (-1, [], None)
  | Some mask =>
      if sz mask =? 0 then Ret (-1, [], None)
      else
        let* last := zread (sb dir) (so dir + (sz dir - 1)) in
        let sep := negb (last =? 47) in
        if PATH_MAX <? u64 (sz mask + sz dir + (if sep then 1 else 0) + 1) then Ret (-1, [], None)
        else
          let* (i, buf) := cpystr_escape buf (sb dir) (so dir) (sz dir) in
          match i with
          | None => Ret (-1, [], None)
          | Some i =>
              if PATH_MAX <=? u64 (i + sz mask + 2) then Ret (-1, [], None)
              else
                let* (buf, o) := (if sep then let* buf := zwrite buf i 47 in Ret (buf, i + 1) else Ret (buf, i)) in
                let* buf := memcpy buf o (sb mask) (so mask) (sz mask) in
                let* buf := zwrite buf (o + sz mask) 0 in
                let* n := strlen buf 0 in
                let* pat := zreads buf 0 n in
                let gflags := Z.lor defaultflags GLOB_MARK in
                let (ret, pathv) := glob pat gflags in
                if negb (ret =? 0) then Ret (ret, [], Some (pat, gflags))
                else if negb new then Ret (-1, [], Some (pat, gflags))
                else
                  let hidden := has flags FLF_INCLUDE_HIDDEN in
                  let a1 := negb hidden && has flags FLF_INCLUDE_DOT in
                  let a2 := negb hidden && has flags FLF_INCLUDE_DOT_DOT in
                  let k1 := if a1 then 1 else 0 in
                  let k2 := if a2 then k1 + 1 else k1 in
                  let f1 := if a1 && add 0 then [mkSp [46; 47; 0] 0 2] else [] in
                  let f2 := if a2 && add k1 then [mkSp [46; 46; 47; 0] 0 3] else [] in
                  let* (ret, files) := list_loop flags add pathv k2 (f1 ++ f2) in
                  Ret (ret, files, Some (pat, gflags))
          end
  end.
