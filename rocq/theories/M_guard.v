(** Model of include/guard_alloc.c.  ps: PAGE_SIZE.  The address space maps page numbers to
    their state. *)
From Verif Require Import Base.

Inductive page := Unmapped | ReadWrite | NoAccess.
Definition vm : Type := Z -> page.
Definition set_pages (v : vm) (first n : Z) (s : page) : vm := fun q => if (first <=? q) && (q <? first + n) then s else v q.
(** munmap(2), mprotect(2): all pages that contain a part of [a, a + len); EINVAL if a is not a
    multiple of the page size *)
Definition pages_of (ps len : Z) : Z := (len + ps - 1) / ps.
Definition munmap (ps : Z) (v : vm) (a len : Z) : vm := if a mod ps =? 0 then set_pages v (a / ps) (pages_of ps len) Unmapped else v.
(** guard_alloc.c 15-24.  base: what mmap(2) returns, None for MAP_FAILED; prot_ok: mprotect
    succeeds *)
Definition guard_alloc (ps : Z) (base : option Z) (prot_ok : bool) (v : vm) (n : Z) : vm * Z :=
  let pages := u64 (1 + n / ps) in
  match base with
  | None => (v, 0)
  | Some mem =>
      let v := set_pages v (mem / ps) (pages_of ps (u64 (u64 (pages + 1) * ps))) ReadWrite in
      if prot_ok then
        let v := set_pages v ((mem + pages * ps) / ps) (pages_of ps ps) NoAccess in
        (v, mem + pages * ps - n)
      else (munmap ps v mem (u64 (u64 (pages + 1) * ps)), 0)
  end.
(** guard_alloc.c 27-31 *)
Definition guard_free (ps : Z) (v : vm) (p n : Z) : vm :=
  let off := Z.land (u64 (- n)) (ps - 1) in
  let mem := u64 (p - off) in
  munmap ps v mem (u64 (u64 (n + off) + ps)).
