(** Model of src/optparser.  argv: the argument buffers; a char* into argument i is (i, offset). *)
From Verif Require Import Base Cstr M_stringptr M_str.

(** include/optparser.h 24-27 *)
Record op_state := mkOp { argc : Z; argv : list (list Z) }.
(** op_init.c 3-6 *)
Definition op_init (ac : Z) (av : list (list Z)) : op_state := mkOp (u32 ac) av.
(** op_get.c 4-12, from str + pos *)
Fixpoint strleneq (fuel : nat) (str : list Z) (pos l : Z) : out Z :=
  match fuel with
  | O => Fuel
  | S fuel =>
      let* c := zread str pos in
      if negb (c =? 0) && negb (c =? 61) then strleneq fuel str (pos + 1) (u64 (l + 1))
      else if c =? 0 then Ret 0 else Ret l
  end.
(** op_hasflag.c 8-11, op_get.c 19-21: the start of the option's name, None if it is no option *)
Definition op_name (s : list Z) (size : Z) : out (option Z) :=
  let* c := zread s 0 in
  if c =? 45 then
    if 1 <? size then let* c := zread s 1 in Ret (Some (if c =? 45 then 2 else 1)) else Ret (Some 1)
  else Ret None.
(** op_hasflag.c 6-14 *)
Fixpoint hasflag_loop (fuel : nat) (p : op_state) (flag : sp) (i : Z) : out Z :=
  match fuel with
  | O => Fuel
  | S fuel =>
      if i <? argc p then
        let* s := zread (argv p) i in
        let* o := op_name s (sz flag) in
        match o with
        | None => hasflag_loop fuel p flag (i + 1)
        | Some o =>
            let* l := strlen s o in
            if l =? sz flag then
              let* e := memcmp0 (sb flag) (so flag) s o l in
              if e then Ret 1 else hasflag_loop fuel p flag (i + 1)
            else hasflag_loop fuel p flag (i + 1)
        end
      else Ret 0
  end.
(** op_hasflag.c 3-17 *)
Definition op_hasflag (p : op_state) (flag : sp) : out Z := hasflag_loop (S (Z.to_nat (argc p))) p flag 1.
(** op_get.c 17-28 *)
Fixpoint get_loop (fuel : nat) (p : op_state) (arg : sp) (i : Z) : out (option (Z * Z)) :=
  match fuel with
  | O => Fuel
  | S fuel =>
      if i <? argc p then
        let* s := zread (argv p) i in
        let* o := op_name s (sz arg) in
        match o with
        | None => get_loop fuel p arg (i + 1)
        | Some o =>
            let* l := strleneq (S (length s)) s o 0 in
            let* e := (if l =? sz arg then memcmp0 (sb arg) (so arg) s o l else Ret false) in
            if e then Ret (Some (i, o + l + 1))
            else
              let* e := (if l =? 0 then streq_at (S (length (sb arg))) (sb arg) s (so arg) o else Ret false) in
              if e && (i + 1 <? argc p) then Ret (Some (i + 1, 0)) else get_loop fuel p arg (i + 1)
        end
      else Ret None
  end.
(** op_get.c 14-30 *)
Definition op_get (p : op_state) (arg : sp) : out (option (Z * Z)) := get_loop (S (Z.to_nat (argc p))) p arg 1.
