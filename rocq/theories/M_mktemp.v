(** Model of src/filelib/ulz_mkdtemp.c and mktempdir.c.

    rand(): a sequence of non-negative numbers, n: how many were taken.  mkdir(2): the results of the
    successive calls (Fuel if they end before the function does); the paths given to it are recorded. *)
From Verif Require Import Base Cstr M_num.

Inductive mkres := MkOk | MkExist | MkFail.  (* MkExist: -1 with EEXIST; MkFail: -1 with another errno *)
(** ulz_mkdtemp.c 16, k more rounds *)
Fixpoint fill (rand : Z -> Z) (k : nat) (templ : list Z) (i n : Z) : out (list Z) :=
  match k with
  | O => Ret templ
  | S k =>
      let* c := zread conv_cypher (rand n mod conv_cypher_len) in
      let* templ := zwrite templ i c in fill rand k templ (i + 1) (n + 1)
  end.
(** ulz_mkdtemp.c 15-21; l: the length of the template; true: not NULL *)
Fixpoint mkdtemp_loop (rand : Z -> Z) (evs : list mkres) (templ : list Z) (l n : Z) (trace : list (list Z)) : out (bool * list Z * Z * list mkres * list (list Z)) :=
  match evs with
  | [] => Fuel
  | e :: evs =>
      let* templ := fill rand 6 templ (l - 6) n in
      let* pl := strlen templ 0 in
      let* path := zreads templ 0 pl in
      let trace := trace ++ [path] in
      match e with
      | MkOk => Ret (true, templ, n + 6, evs, trace)
      | MkExist => mkdtemp_loop rand evs templ l (n + 6) trace
      | MkFail => Ret (false, templ, n + 6, evs, trace)
      end
  end.
(** ulz_mkdtemp.c 9-22 *)
Definition ulz_mkdtemp (rand : Z -> Z) (evs : list mkres) (templ : list Z) (n : Z) : out (bool * list Z * Z * list mkres * list (list Z)) :=
  let* l := strlen templ 0 in
  if l <? 6 then Ret (false, templ, n, evs, []) else mkdtemp_loop rand evs templ l n [].
(** mktempdir.c 3-12 *)
Definition gen_fn (buf prefix : list Z) (pl : Z) (tmpdir : list Z) : out (Z * list Z) :=
  let* tl := strlen tmpdir 0 in
  let* x := zreads tmpdir 0 tl in
  let* buf := zwrites buf 0 x in
  let* x := zreads prefix 0 pl in
  let* buf := zwrites buf tl x in
  let* buf := zwrites buf (tl + pl) [88; 88; 88; 88; 88; 88; 0] in
  Ret (tl + pl + 6, buf).
(** "/dev/shm/", "/tmp/" *)
Definition dev_shm : list Z := [47; 100; 101; 118; 47; 115; 104; 109; 47; 0].
Definition tmp : list Z := [47; 116; 109; 112; 47; 0].
(** mktempdir.c 16-25.  The result: the length, the buffer and the paths given to mkdir *)
Definition mktempdir (rand : Z -> Z) (evs : list mkres) (prefix buffer : list Z) (bufsize : Z) : out (Z * list Z * list (list Z)) :=
  let* pl := strlen prefix 0 in
  if bufsize <? u64 (10 - 1 + pl + 7) then Ret (0, buffer, [])
  else
    let* (ret, buffer) := gen_fn buffer prefix pl dev_shm in
    let* (ok, buffer, n, evs, tr1) := ulz_mkdtemp rand evs buffer 0 in
    if ok : bool then Ret (ret, buffer, tr1)
    else
      let* (ret, buffer) := gen_fn buffer prefix pl tmp in
      let* (ok, buffer, n, evs, tr2) := ulz_mkdtemp rand evs buffer n in
      if ok : bool then Ret (ret, buffer, tr1 ++ tr2) else Ret (0, buffer, tr1 ++ tr2).
