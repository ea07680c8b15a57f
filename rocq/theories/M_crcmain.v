(** Model of main and selftest of examples/crc32_printer.c (lines 43-110), on top of M_crc32 and M_ex.

    fopen and fread are libc's: the file is its content, fread stores min(count, rest) bytes.  The value
    atoi gives for argv[2] is an argument.  A failing assert is UB.  What printf writes is a list of bytes. *)
From Verif Require Import Base M_crc32 M_ex.

(** crc32_printer.c 48-53: the union read as uint32_t, little endian *)
Definition le32 (b : list Z) : out Z :=
  let* b0 := zread b 0 in let* b1 := zread b 1 in let* b2 := zread b 2 in let* b3 := zread b 3 in
  Ret (b0 + 256 * b1 + 65536 * b2 + 16777216 * b3).
(** "123456789" *)
Definition digits9 : list Z := [49; 50; 51; 52; 53; 54; 55; 56; 57; 0].
(** crc32_printer.c 43-54 with CRC32 or CRC32C; res: the local union *)
Definition selftest (ts : list (list Z)) (res : list Z) : out Z :=
  let* st := Update 10 ts Init digits9 0 9 in
  let* (_, b) := Final res st in le32 b.
(** ... and with crc32_r4 *)
Definition selftest_r4 : out Z := let* c := r4_update 9 r4_init digits9 0 in le32 (r4_final c).
Definition assert (b : bool) : out unit := if b then Ret tt else UB.
(** printf("%02x", b) for an unsigned char *)
Definition xdigit (v : Z) : Z := if v <? 10 then 48 + v else 87 + v.
Definition pct02x (b : Z) : list Z := [xdigit (b / 16); xdigit (b mod 16)].
(** crc32_printer.c 91-98: the three states; cnt: the second argument, -1: none; rest: what is not yet read;
    buf: the local array of 65536 bytes *)
Fixpoint read_loop (fuel : nat) (tc ts : list (list Z)) (cnt : Z) (rest buf : list Z) (c s r : Z) : out (Z * Z * Z) :=
  match fuel with
  | O => Fuel
  | S fuel =>
      let data := ztake (if cnt =? -1 then 65536 else u64 cnt) rest in
      let n := zlen data in
      let* buf := zwrites buf 0 data in
      if n =? 0 then Ret (c, s, r)
      else
        let* c := Update (S (Z.to_nat n)) tc c buf 0 n in
        let* s := Update (S (Z.to_nat n)) ts s buf 0 n in
        let* r := r4_update (Z.to_nat n) r buf 0 in
        if negb (cnt =? -1) then Ret (c, s, r) else read_loop fuel tc ts cnt (zdrop n rest) buf c s r
  end.
(** crc32_printer.c 107-109: "CRC (castagnoli): ", "CRC (standard)  : ", "CRC (r4/jamcrc) : " *)
Definition label_c : list Z := [67; 82; 67; 32; 40; 99; 97; 115; 116; 97; 103; 110; 111; 108; 105; 41; 58; 32].
Definition label_s : list Z := [67; 82; 67; 32; 40; 115; 116; 97; 110; 100; 97; 114; 100; 41; 32; 32; 58; 32].
Definition label_r : list Z := [67; 82; 67; 32; 40; 114; 52; 47; 106; 97; 109; 99; 114; 99; 41; 32; 58; 32].
Definition line (label bs : list Z) : list Z := label ++ flat_map pct02x bs ++ [10].
(** crc32_printer.c 56-110.  argc, and the value of atoi(argv[2]); file: the content, None: fopen gave NULL
    (fread is then given NULL); res, buf, b1, b2: the uninitialised local arrays.  None: the usage, 1 *)
Definition crc_main (fuel : nat) (argc arg2 : Z) (file : option (list Z)) (res buf b1 b2 : list Z) : out (option (list Z)) :=
  let* tc := InitTables POLY32C in
  let* ts := InitTables POLY32 in
  let* check := selftest ts res in
  let* _ := assert (check =? 0xcbf43926) in
  let* check := selftest tc res in
  let* _ := assert (check =? 0xe3069283) in
  let* check := selftest_r4 in
  let* _ := assert (check =? 0x340bc6d9) in
  if argc <? 2 then Ret None
  else
    let cnt := if argc =? 3 then arg2 else -1 in
    match file with
    | None => UB
    | Some content =>
        let* (c, s, r) := read_loop fuel tc ts cnt content buf Init Init r4_init in
        let* (_, crc32c) := Final b1 c in
        let* (_, crc32) := Final b2 s in
        Ret (Some (line label_c crc32c ++ line label_s crc32 ++ line label_r (r4_final r)))
    end.
