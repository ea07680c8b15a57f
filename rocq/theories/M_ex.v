(** Models of example programs: examples/hex.c, examples/diff.c, the crc of examples/crc32_printer.c
    and compare_files of examples/find_identical_files.c. *)
From Verif Require Import Base M_hex M_format M_fmtuse.

(** ** examples/hex.c *)
(** hex.c 15-21.  reads: what the calls of read(2) store, one after the other; none left, or nothing
    stored: it returned 0 or -1.  buf, obuf: the local arrays of 1024 and 2049 bytes.  dest, cbuf: the local
    arrays of ulz_printf and ulz_vsnprintf.  The result is what is given to write(2) *)
Fixpoint hex_loop (reads : list (list Z)) (buf obuf dest cbuf : list Z) : out (list (Z * list Z)) :=
  let stop := let* w := ulz_printf [10; 0] [] dest cbuf in Ret match w with Some w => [w] | None => [] end in
  match reads with
  | [] => stop
  | x :: reads =>
      if zlen x =? 0 then stop
      else
        let* buf := zwrites buf 0 x in
        let* obuf := raw2hex obuf buf (zlen x) in
        let* w := ulz_printf [37; 115; 0] [VStr (Some obuf)] dest cbuf in
        let* ws := hex_loop reads buf obuf dest cbuf in
        Ret (match w with Some w => [w] | None => [] end ++ ws)
  end.

(** ** examples/diff.c *)
(** what is printed: lines 17, 26, 32 *)
Inductive msg := Sizes (a b : Z) | Diff (o n : Z) | Total (n m : Z).
(** diff.c 25: the condition of the inner loop with its side effects.  p: offset of p1 and of p2 *)
Fixpoint diff_inner (fuel : nat) (f1 f2 : list Z) (min p l : Z) : out (Z * Z) :=
  match fuel with
  | O => Fuel
  | S fuel =>
      let l := l + 1 in
      if p + l <? min then
        let p := p + 1 in
        let* a := zread f1 p in
        let* b := zread f2 p in
        if a =? b then Ret (p, l) else diff_inner fuel f1 f2 min p l
      else Ret (p, l)
  end.
(** diff.c 22-31.  Forming p1 - l outside of the file is not counted as undefined *)
Fixpoint diff_loop (fuel : nat) (f1 f2 : list Z) (min p diffs : Z) : out (list msg) :=
  match fuel with
  | O => Fuel
  | S fuel =>
      if p <? min then
        let* a := zread f1 p in
        let* b := zread f2 p in
        if a =? b then diff_loop fuel f1 f2 min (p + 1) diffs
        else
          let* (p, l) := diff_inner (S (length f1)) f1 f2 min p 0 in
          let* ms := diff_loop fuel f1 f2 min (p + 1) (diffs + 1) in
          Ret (Diff (u64 (p - l)) l :: ms)
      else Ret [Total diffs min]
  end.
(** diff.c 9-33; f1, f2: the contents of the files, neither NULL *)
Definition diff (f1 f2 : list Z) : out (list msg) :=
  let min := zlen f1 in
  if zlen f2 =? min then diff_loop (S (length f1)) f1 f2 min 0 0
  else
    let m := [Sizes min (zlen f2)] in
    let min := if zlen f2 <? min then zlen f2 else min in
    let* ms := diff_loop (S (length f1)) f1 f2 min 0 0 in
    Ret (m ++ ms).
(** the formats of diff.c 17, 26, 32: "sizes differ! %zu, %zu\n", "difference at offset %zu of size %zu\n",
    "%zu differences in %zu bytes detected.\n" *)
Definition say (m : msg) (dest cbuf : list Z) : out (option (Z * list Z)) :=
  match m with
  | Sizes a b => ulz_printf [115; 105; 122; 101; 115; 32; 100; 105; 102; 102; 101; 114; 33; 32; 37; 122; 117; 44; 32; 37; 122; 117; 10; 0] [VLong a; VLong b] dest cbuf
  | Diff o n => ulz_printf [100; 105; 102; 102; 101; 114; 101; 110; 99; 101; 32; 97; 116; 32; 111; 102; 102; 115; 101; 116; 32; 37; 122; 117; 32; 111; 102; 32; 115; 105; 122; 101; 32; 37; 122; 117; 10; 0] [VLong o; VLong n] dest cbuf
  | Total n m => ulz_printf [37; 122; 117; 32; 100; 105; 102; 102; 101; 114; 101; 110; 99; 101; 115; 32; 105; 110; 32; 37; 122; 117; 32; 98; 121; 116; 101; 115; 32; 100; 101; 116; 101; 99; 116; 101; 100; 46; 10; 0] [VLong n; VLong m] dest cbuf
  end.

(** ** examples/crc32_printer.c *)
(** crc32_printer.c 29-30, n rounds *)
Fixpoint r4_byte (n : nat) (crc : Z) : Z :=
  match n with
  | O => crc
  | S n => r4_byte n (Z.lxor (Z.shiftr crc 1) (if Z.land crc 1 =? 0 then 0 else 0xedb88320))
  end.
(** crc32_printer.c 22-33; n = len *)
Fixpoint r4_update (n : nat) (crc : Z) (buf : list Z) (o : Z) : out Z :=
  match n with
  | O => Ret crc
  | S n => let* b := zread buf o in r4_update n (r4_byte 8 (Z.lxor crc b)) buf (o + 1)
  end.
(** crc32_printer.c 91-98: the calls for the blocks of the file, each given by the buffer around it *)
Fixpoint r4_updates (c : Z) (calls : list (list Z * list Z * list Z)) : out Z :=
  match calls with
  | [] => Ret c
  | (p, l, q) :: calls => let* c := r4_update (length l) c (p ++ l ++ q) (zlen p) in r4_updates c calls
  end.
(** crc32_printer.c 17-20 *)
Definition r4_init : Z := 0xffffffff.
(** crc32_printer.c 35-41, little endian *)
Definition r4_final (crc : Z) : list Z := map (fun k => Z.land (Z.shiftr crc k) 0xff) [0; 8; 16; 24].

(** ** examples/find_identical_files.c *)
(** find_identical_files.c 17-24.  r1, r2: what is not yet read of the files (fread gives a whole block
    unless the file ends).  0: identical *)
Fixpoint compare_loop (fuel : nat) (r1 r2 : list Z) : out Z :=
  match fuel with
  | O => Fuel
  | S fuel =>
      let b1 := ztake 16384 r1 in
      if zlen b1 =? 0 then Ret 0
      else
        let b2 := ztake 16384 r2 in
        if negb (zlen b1 =? zlen b2) then Ret 1
        else if negb (if list_eq_dec Z.eq_dec b1 b2 then true else false) then Ret 1
        else compare_loop fuel (zdrop 16384 r1) (zdrop 16384 r2)
  end.
Definition compare_files (f1 f2 : list Z) : out Z := compare_loop (S (length f1)) f1 f2.
(** find_identical_files.c 7-10 *)
Definition endswithchar (s : list Z) (ch : Z) : bool := if zlen s =? 0 then false else znth 0 s (zlen s - 1) =? ch.
(** find_identical_files.c 43-44: the names full1 and full2 of the file f *)
Definition full_names (dir1 dir2 f : list Z) : list Z * list Z :=
  (dir1 ++ (if endswithchar dir1 47 then [] else [47]) ++ f, dir2 ++ (if endswithchar dir1 47 then [] else [47]) ++ f).
(** find_identical_files.c 32-64.  ls: what filelist_search returns and lists; size: getfilesize; content: what
    is in a file.  mode 0: identical.  The result is what is printed and what is returned; None: the end of
    the function is reached without a return, so that using the value is undefined *)
Section Tree.
Variables (ls : list Z -> Z * list (list Z)) (size : list Z -> Z) (content : list Z -> list Z) (mode : Z).
Fixpoint process_path (fuel : nat) (dir1 dir2 : list Z) : out (list (list Z) * option Z) :=
  match fuel with
  | O => Fuel
  | S fuel =>
      let (ret, fl1) := ls dir1 in
      if negb (ret =? 0) then Ret ([], Some ret)
      else
        let (ret, fl2) := ls dir2 in
        if negb (ret =? 0) then Ret ([], Some ret)
        else
          (fix loop (fs : list (list Z)) : out (list (list Z) * option Z) :=
             match fs with
             | [] => Ret ([], None)
             | f :: fs =>
                 if negb (existsb (fun g => if list_eq_dec Z.eq_dec g f then true else false) fl2) then loop fs
                 else
                   let (full1, full2) := full_names dir1 dir2 f in
                   if endswithchar f 47 then
                     let* (ps, ret) := process_path fuel full1 full2 in
                     match ret with
                     | None => UB
                     | Some ret => if negb (ret =? 0) then Ret (ps, Some ret) else let* (qs, ret) := loop fs in Ret (ps ++ qs, ret)
                     end
                   else
                     let* print :=
                       if negb (size full1 =? size full2) then Ret (negb (mode =? 0))
                       else let* c := compare_files (content full1) (content full2) in Ret (c =? mode) in
                     let* (qs, ret) := loop fs in
                     Ret ((if print : bool then [full1] else []) ++ qs, ret)
             end) fl1
  end.
(** find_identical_files.c 82-83: what main prints and returns *)
Definition tree_main (fuel : nat) (dir1 dir2 : list Z) : out (list (list Z) * Z) :=
  let* (ps, ret) := process_path fuel dir1 dir2 in
  match ret with None => UB | Some ret => Ret (ps, ret) end.
End Tree.
