(** Model of src/filelib/normalizepath_cstr.c compiled with PSPLIKE_PATH: a drive name with a
    colon in front of a unix path.  The main loop is the one of M_filelib. *)
From Verif Require Import Base M_filelib.

(** normalizepath_cstr.c 18-25: i, out, out_size after the loop; None = goto fail *)
Fixpoint psp_drive (fuel : nat) (path : list Z) (i : Z) (ob : list Z) (os : Z) : out (option (Z * list Z * Z)) :=
  match fuel with
  | O => Fuel
  | S fuel =>
      let* c := zread path i in
      if c =? 0 then Ret (Some (i, ob, os))
      else
        let* ob := zwrite ob os c in
        let os := os + 1 in
        if c =? 47 then
          let os := os - 1 in
          if 0 <? i then
            let* p := zread path (i - 1) in
            Ret (if negb (p =? 58) then None else Some (i, ob, os))
          else Ret (Some (i, ob, os))
        else psp_drive fuel path (i + 1) ob os
  end.
(** normalizepath_cstr.c 12-82; None = return 0, else the content of out *)
Definition normalizepath_psp (fuel : nat) (path ob : list Z) : out (option (list Z)) :=
  let* r := psp_drive fuel path 0 ob 0 in
  match r with
  | None => Ret None
  | Some (i, ob, os) =>
      let* c := zread path i in
      if negb (c =? 47) then Ret None
      else
        let* r := np_loop fuel true path 0 0 i ob os in
        match r with
        | None => Ret None
        | Some (ob, os) => let* (ob, os) := np_finish ob os in Ret (Some ob)
        end
  end.
