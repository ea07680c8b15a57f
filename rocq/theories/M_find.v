(** Models of examples/filelist_find_test.c and examples/filelist_find_test2.c.

    glob(3) is the oracle of M_filelist (the file tree does not change while the program runs); every
    allocation succeeds, mal is what a new block contains; junk: the local buffers of the calls of
    filelist_search; write(2) writes everything. *)
From Verif Require Import Base Cstr M_stringptr M_filelist M_log.

(** the mask SPL("*") *)
Definition star : sp := mkSp [42; 0] 0 1.
(** filelist_find_test.c 5-7, filelist_find_test2.c 12-14 *)
Definition isdir (s : sp) : out bool := if sz s =? 0 then Ret false else let* c := zread (sb s) (so s + (sz s - 1)) in Ret (c =? 47).
(** log_puts(1, s); log_putln(1) *)
Definition put_line (s : sp) : out (list event) := let* e := log_puts 1 (Some s) in Ret (e ++ log_putln 1).
(** stringptr_concat(a, b, NULL), the result not NULL *)
Definition concat2 (mal : Z -> Z) (a b : sp) : out sp :=
  let* r := stringptr_concat (Some mal) a [b] in match r with None => UB | Some r => Ret r end.
(** filelist_find_test.c 9-17, filelist_find_test2.c 16-24 *)
Definition usage : list Z := [112; 114; 111; 103; 32; 100; 105; 114; 10; 108; 105; 115; 116; 115; 32; 97; 108; 108; 32; 102; 105; 108; 101; 115; 32; 105; 110; 32; 100; 105; 114; 46; 32; 116; 104; 101; 32; 111; 117; 116; 112; 117; 116; 32; 115; 104; 111; 117; 108; 100; 32; 98; 101; 32; 101; 113; 117; 105; 118; 97; 108; 101; 110; 116; 32; 116; 111; 10; 102; 105; 110; 100; 32; 100; 105; 114; 32; 45; 110; 97; 109; 101; 32; 39; 42; 39; 10; 97; 116; 32; 108; 101; 97; 115; 116; 32; 114; 101; 103; 97; 114; 100; 105; 110; 103; 32; 110; 117; 109; 98; 101; 114; 32; 111; 102; 32; 114; 101; 116; 117; 114; 110; 101; 100; 32; 101; 110; 116; 114; 105; 101; 115; 46; 10].
Definition syntax : out (Z * list event) := let* e := log_puts 1 (Some (mkSp (usage ++ [0]) 0 (zlen usage))) in Ret (1, e).

Section Find.
Variables (glob : list Z -> Z -> Z * list (list Z)) (junk : nat -> list Z) (mal : Z -> Z).
(** filelist_find_test.c 19-35; fuel bounds the depth of the recursion *)
Fixpoint doDir (fuel : nat) (dir : sp) : out (list event) :=
  match fuel with
  | O => Fuel
  | S fuel =>
      let* (ret, files, _) := filelist_search glob true (fun _ => true) (junk fuel) (Some dir) (Some star) FLF_INCLUDE_HIDDEN in
      if ret =? 0 then
        let* a := put_line dir in
        let* b := (fix loop (fs : list sp) : out (list event) :=
                     match fs with
                     | [] => Ret []
                     | file :: fs =>
                         let* d := isdir file in
                         let* x := (if d : bool then doDir fuel file else put_line file) in
                         let* y := loop fs in Ret (x ++ y)
                     end) files in
        Ret (a ++ b)
      else Ret []
  end.
(** filelist_find_test.c 37-50; arg: the buffer argv[1] *)
Definition find_main (fuel : nat) (argc : Z) (arg : list Z) : out (Z * list event) :=
  if negb (argc =? 2) then syntax
  else
    let* n := strlen arg 0 in
    let srcdir := mkSp arg 0 n in
    let* d := isdir srcdir in
    let* dir := (if d : bool then Ret srcdir else concat2 mal srcdir (mkSp [47; 0] 0 1)) in
    let* e := doDir fuel dir in Ret (0, e).

(** filelist_find_test2.c 26-50; srcdir: progstate.srcdir *)
Fixpoint doDir2 (fuel : nat) (srcdir subd : sp) : out (list event) :=
  match fuel with
  | O => Fuel
  | S fuel =>
      let* combined_src := concat2 mal srcdir subd in
      let* (ret, files, _) := filelist_search glob true (fun _ => true) (junk fuel) (Some combined_src) (Some star) (Z.lor FLF_EXCLUDE_PATH FLF_INCLUDE_HIDDEN) in
      if ret =? 0 then
        let* a := put_line combined_src in
        let* b := (fix loop (fs : list sp) : out (list event) :=
                     match fs with
                     | [] => Ret []
                     | file :: fs =>
                         let* file_combined_src := concat2 mal combined_src file in
                         let* d := isdir file in
                         let* x := (if d : bool then let* path_combined := concat2 mal subd file in doDir2 fuel srcdir path_combined
                                    else put_line file_combined_src) in
                         let* y := loop fs in Ret (x ++ y)
                     end) files in
        Ret (a ++ b)
      else Ret []
  end.
(** filelist_find_test2.c 52-61 *)
Definition find_main2 (fuel : nat) (argc : Z) (arg : list Z) : out (Z * list event) :=
  if negb (argc =? 2) then syntax
  else
    let* n := strlen arg 0 in
    let srcdir := mkSp arg 0 n in
    let* d := isdir srcdir in
    let* e := doDir2 fuel srcdir (if d : bool then mkSp [0] 0 0 else mkSp [47; 0] 0 1) in Ret (0, e).
End Find.
