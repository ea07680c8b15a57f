(** Model of the users of ulz_vsnprintf: src/format/ulz_printf.c, ulz_fprintf.c,
    src/timelib/timestamp.c, src/stringptr/stringptr_format.c. *)
From Verif Require Import Base M_stringptr M_num M_format.

(** ulz_fprintf.c 6-15.  dest: the local buffer of 4096 bytes, not initialised.  The result is the
    bytes given to write(2), None if it is not called; write reading past dest is UB *)
Definition ulz_fprintf (fd : Z) (fmt : list Z) (args : list arg) (dest cbuf : list Z) : out (option (Z * list Z)) :=
  let* (result, d) := ulz_vsnprintf (Some dest) 4096 fmt args cbuf in
  match d with
  | None => UB
  | Some d => if result =? 0 then Ret None else let* x := zreads d 0 (u64 result) in Ret (Some (fd, x))
  end.
(** ulz_printf.c 6-15 *)
Definition ulz_printf := ulz_fprintf 1.

(** the fields of struct tm that are used *)
Record tm := mkTm { tm_year : Z; tm_mon : Z; tm_mday : Z; tm_hour : Z; tm_min : Z; tm_sec : Z }.
(** "%.4d-%.2d-%.2d %.2d:%.2d:%.2d" *)
Definition tstamp_fmt : list Z :=
  [37; 46; 52; 100; 45; 37; 46; 50; 100; 45; 37; 46; 50; 100; 32; 37; 46; 50; 100; 58; 37; 46; 50; 100; 58; 37; 46; 50; 100; 0].
(** timestamp.c 7-12; tim: the result of localtime_r(time(NULL)), assumed not to fail *)
Definition timestamp (buffer : list Z) (bufsize : Z) (tim : tm) (cbuf : list Z) : out (Z * list Z) :=
  let* y := int_r (1900 + tm_year tim) in
  let* m := int_r (tm_mon tim + 1) in
  let* (r, d) := ulz_snprintf (Some buffer) bufsize tstamp_fmt [VInt y; VInt m; VInt (tm_mday tim); VInt (tm_hour tim); VInt (tm_min tim); VInt (tm_sec tim)] cbuf in
  match d with
  | None => UB
  | Some d => Ret (u64 r, d)
  end.

(** stringptr_format.c 6-15; fmt None: NULL (the stringptr is leaked then).  The result of
    ulz_vsnprintf is stored in a size_t *)
Definition stringptr_format (mal : option (Z -> Z)) (fmt : option (list Z)) (args : list arg) (cbuf : list Z) : out (option sp) :=
  let* result := stringptr_new mal 1000 in
  match result, fmt with
  | Some result, Some fmt =>
      let* (r, d) := ulz_vsnprintf (Some (zdrop (so result) (sb result))) 1000 fmt args cbuf in
      match d with
      | None => UB
      | Some d => Ret (Some (mkSp (ztake (so result) (sb result) ++ d) (so result) (u64 r)))
      end
  | _, _ => Ret None
  end.
