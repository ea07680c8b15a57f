(** Model of examples/find_identical_files.c on whole directory trees: as M_ex, but files may fail
    to open, and a caller of process_path that gets no value sees an arbitrary one.

    Simplifications: as M_ex; [off dir1 dir2] is what the caller of process_path(dir1, dir2) sees
    when the end of the function is reached without a return (undefined in C: M_ex says UB);
    memory does not run out; the lists leaked by an early return are left out. *)
From Verif Require Import Base M_ex.

Section Tree.
Variables (ls : list Z -> Z * list (list Z)) (size : list Z -> Z) (opn : list Z -> option (list Z)) (mode : Z) (off : list Z -> list Z -> Z).
(** find_identical_files.c 12-28: opn: what is in a file, None when fopen fails, whose NULL is
    given to fread or fclose *)
Definition compare_opened (full1 full2 : list Z) : out Z :=
  match opn full1, opn full2 with
  | Some c1, Some c2 => compare_files c1 c2
  | _, _ => UB
  end.
(** find_identical_files.c 32-64 *)
Fixpoint tree_path (fuel : nat) (dir1 dir2 : list Z) : out (list (list Z) * Z) :=
  match fuel with
  | O => Fuel
  | S fuel =>
      let (ret, fl1) := ls dir1 in
      if negb (ret =? 0) then Ret ([], ret)
      else
        let (ret, fl2) := ls dir2 in
        if negb (ret =? 0) then Ret ([], ret)
        else
          (fix loop (fs : list (list Z)) : out (list (list Z) * Z) :=
             match fs with
             | [] => Ret ([], off dir1 dir2)
             | f :: fs =>
                 if negb (existsb (fun g => if list_eq_dec Z.eq_dec g f then true else false) fl2) then loop fs
                 else
                   let (full1, full2) := full_names dir1 dir2 f in
                   if endswithchar f 47 then
                     let* (ps, ret) := tree_path fuel full1 full2 in
                     if negb (ret =? 0) then Ret (ps, ret)
                     else let* (qs, ret) := loop fs in Ret (ps ++ qs, ret)
                   else
                     let* print :=
                       if negb (size full1 =? size full2) then Ret (negb (mode =? 0))
                       else let* c := compare_opened full1 full2 in Ret (c =? mode) in
                     let* (qs, ret) := loop fs in
                     Ret ((if print : bool then [full1] else []) ++ qs, ret)
             end) fl1
  end.
(** find_identical_files.c 77-84: the mode chosen by the first byte of argv[1] *)
Definition mode_of (arg : list Z) : out Z := let* c := zread arg 0 in Ret (if c =? 105 then 0 else 1).
End Tree.
(** what main prints and returns, for arguments that are NUL-terminated strings; argc = 4 *)
Definition find_main ls size opn off (fuel : nat) (arg1 dir1 dir2 : list Z) : out (list (list Z) * Z) :=
  let* mode := mode_of arg1 in tree_path ls size opn mode off fuel dir1 dir2.
