(** Specification of the SHA-512 functions of this library for updates of any sizes, also those that break the chunking
    rule of sha512.h. *)
From Verif Require Import Base S_hash S_sha512.

(** a chunk: its whole blocks of 128 bytes, and what is behind them *)
Definition full_part (l : list Z) : list Z := ztake (128 * (zlen l / 128)) l.
Definition rest (l : list Z) : list Z := zdrop (128 * (zlen l / 128)) l.
(** the array x of the context: each rest overwrites its beginning *)
Definition scratch (ls : list (list Z)) : list Z := fold_left (fun x l => rest l ++ zdrop (zlen (rest l)) x) ls (zrepeat 0 256).
(** the last one or two blocks, for a total of n bytes: x with the mark and the length *)
Definition last_blocks (n : Z) (x : list Z) : list Z :=
  let m := n mod 128 in
  let size := if m <? 112 then 128 else 256 in
  ztake m x ++ [128] ++ ztake (size - 10 - m) (zdrop (m + 1) x) ++ [n / 2 ^ 61] ++ be_bytes 8 (8 * n).
(** the digest: the whole blocks of all chunks, then the last blocks.  Sizes are counted modulo 2^64. *)
Definition digest (ls : list (list Z)) : list Z :=
  concat (map (be_bytes 8) (sha_blocks (concat (map full_part ls) ++ last_blocks (zlen (concat ls) mod 2 ^ 64) (scratch ls)))).

(** what read calls with a buffer of n bytes deliver of the bytes l, up to the end of them: each one as much as it
    likes, but at least one byte *)
Inductive deliver (n : Z) : list Z -> list Z -> list (list Z) -> Prop :=
| deliver_end k ks : deliver n (k :: ks) [] []
| deliver_piece k ks p q ps : 0 < zlen p -> zlen p = Z.min k (Z.min n (zlen (p ++ q))) -> deliver n ks q ps -> deliver n (k :: ks) (p ++ q) (p :: ps).
