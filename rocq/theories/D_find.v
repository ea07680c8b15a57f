(** What glob(3) gives for a file system. *)
From Verif Require Import Base Cstr M_stringptr M_filelist S_filelist P_filelist S_find.

(** the flags of the programs: with hidden files, "." and ".." left out *)
Definition flf_all (nopath : bool) : flf := mkFlf false false nopath true.
(** for the pattern "directory/*" with GLOB_PERIOD | GLOB_MARK: the entries of the directory, with or without
    "." and "..".  Only directories whose names fit into PATH_MAX *)
Definition serves (glob : list Z -> Z -> Z * list (list Z)) (fs : files) : Prop :=
  forall p es, fs p = Some es -> nz p /\ zlen (escape p) + 3 < PATH_MAX /\
    exists pathv ns, glob (escape p ++ [42]) 130 = (0, pathv) /\ Forall2 is_name pathv ns /\
      Forall (fun n => n_dir n ++ [47] = p /\ zlen (n_base n) < 2 ^ 62) ns /\
      map (fun n => (n_base n, n_mark n)) (filter (listed (flf_all false)) ns) = es.
