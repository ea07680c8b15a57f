(** Model of examples/codedup.c.

    Simplifications:
    - option parsing: blocklen_min, start, end and the whitespace flag are arguments, as the
      size_t values main stores (a negative number given to -i is a value near 2^64);
    - allocations succeed (junk: the bytes realloc adds); hashlist and strlist, always of the same length
      by the assertion of line 102, are one list of pairs;
    - the map `dupes' is a list of bindings in the order of insertion, and the order in
      which hbmap_foreach visits its keys is the argument [order] (C10 to C13 are about hbmap itself);
    - a failing assert is the outcome UB;
    - isspace: of the "C" locale; a negative char is not a space;
    - numbers stored in int are not reduced (linecount and start + linecount are assumed
      below 2^31), so sortitem_cmp does not overflow;
    - the progress reports on stderr (sigh, neednl, cl) are left out; the result is what is
      printed on stdout as records. *)
From Verif Require Import Base Cstr M_spfile M_tglist.

(** codedup.c 10-17; char is signed, uint_fast32_t has 64 bits; s: the bytes before the NUL *)
Definition schar (c : Z) : Z := if c <? 128 then c else c - 256.
Fixpoint hash_from (h : Z) (s : list Z) : Z :=
  match s with
  | [] => h
  | c :: s =>
      let h := u64 (16 * h + schar c) in
      let h := Z.lxor h (Z.land (Z.shiftr h 24) 240) in
      hash_from h s
  end.
Definition string_hash (s : list Z) : Z := Z.land (hash_from 0 s) 268435455.

(** strcmp(s1, s2) == 0 *)
Fixpoint streq (s1 s2 : list Z) : bool :=
  match s1, s2 with
  | [], [] => true
  | a :: s1, b :: s2 => (a =? b) && streq s1 s2
  | _, _ => false
  end.
(** codedup.c 19-21; a line: its hash and its bytes *)
Definition line_equal (l1 l2 : Z * list Z) : bool := (fst l1 =? fst l2) && streq (snd l1) (snd l2).

(** codedup.c 56-61 *)
Definition sortitem_cmp (a b : Z * Z) : Z :=
  let ret := fst b - fst a in
  if ret =? 0 then snd a - snd b else ret.

(** strrchr(s, '\n'), s the bytes before the NUL; i: index of the first of them *)
Fixpoint strrchr_lf (s : list Z) (i : Z) (best : option Z) : option Z :=
  match s with
  | [] => best
  | c :: s => strrchr_lf s (i + 1) (if c =? 10 then Some i else best)
  end.
Definition isspace (c : Z) : bool := (9 <=? c) && (c <=? 13) || (c =? 32).
(** codedup.c 97: the loop *)
Fixpoint skip_ws (fuel : nat) (b : list Z) (p : Z) : out Z :=
  match fuel with
  | O => Fuel
  | S fuel =>
      let* c := zread b p in
      if isspace c then skip_ws fuel b (p + 1) else Ret p
  end.
(** codedup.c 91-104.  buf: the local array, input: what is left of the file, acc: the lines stored so far *)
Fixpoint read_loop (fuel : nat) (ws : bool) (start end_ : Z) (buf input : list Z) (i : Z) (acc : list (Z * list Z)) : out (list (Z * list Z)) :=
  match fuel with
  | O => Fuel
  | S fuel =>
      let* (r, input) := fgets buf (zlen buf) input in
      match r with
      | None => Ret acc
      | Some buf =>
          let i := u64 (i + 1) in
          if u64 (i - 1) <? start then read_loop fuel ws start end_ buf input i acc
          else if negb (end_ =? SIZE_MAX) && (end_ <=? i) then Ret acc
          else
            let* n := strlen buf 0 in
            let* buf := match strrchr_lf (ztake n buf) 0 None with Some q => zwrite buf q 0 | None => Ret buf end in
            let* p := if ws then skip_ws (length buf) buf 0 else Ret 0 in
            let* n := strlen buf p in
            let* s := zreads buf p n in
            let acc := acc ++ [(string_hash s, s)] in
            if negb (zlen acc =? u64 (i - start)) then UB
            else
              let* x := zread acc (u64 (u64 (i - start) - 1)) in
              if negb (streq s (snd x)) then UB
              else read_loop fuel ws start end_ buf input i acc
      end
  end.

(** ** The search *)
Definition dmap := list (Z * tgl (Z * Z)).
Fixpoint dfind (k : Z) (m : dmap) : option (tgl (Z * Z)) :=
  match m with
  | [] => None
  | (k', d) :: m => if k =? k' then Some d else dfind k m
  end.
(** a change through the pointer stored under k *)
Fixpoint dset (k : Z) (d : tgl (Z * Z)) (m : dmap) : dmap :=
  match m with
  | [] => []
  | (k', d') :: m => if k =? k' then (k', d) :: m else (k', d') :: dset k d m
  end.

Section Search.
Variables (L : list (Z * list Z)) (bl : Z) (junk : Z -> Z * Z).

(** the condition of codedup.c 124 and 129: lines at two indices *)
Definition leq (a b : Z) : out bool :=
  let* x := zread L a in
  let* y := zread L b in
  Ret (line_equal x y).
(** codedup.c 123-126 *)
Fixpoint cmp_loop (fuel : nat) (i j h : Z) : out Z :=
  match fuel with
  | O => Fuel
  | S fuel =>
      if h <? bl then
        let* e := leq (u64 (i + h)) (u64 (j + h)) in
        if e then cmp_loop fuel i j (h + 1) else Ret h
      else Ret h
  end.
(** codedup.c 129-130 *)
Fixpoint ext_loop (fuel : nat) (i j h : Z) : out Z :=
  match fuel with
  | O => Fuel
  | S fuel =>
      if (u64 (j + h) <? zlen L) && (u64 (i + h) <? j) then
        let* e := leq (u64 (i + h)) (u64 (j + h)) in
        if e then ext_loop fuel i j (u64 (h + 1)) else Ret h
      else Ret h
  end.
(** codedup.c 131-143 *)
Definition note (m : dmap) (i j h : Z) : out dmap :=
  let hi := dfind i m in
  let dlist := match hi with None => tglist_init | Some d => d end in
  let* (_, dlist) := tglist_insert_sorted 8 (Some junk) sortitem_cmp dlist (h, j) in
  Ret match hi with None => m ++ [(i, dlist)] | Some _ => dset i dlist m end.
(** codedup.c 120-151; the result: the map, dupe_count and longest_dupe *)
Fixpoint j_loop (fuel : nat) (i j : Z) (m : dmap) (dupe_count longest : Z) : out (dmap * Z * Z) :=
  match fuel with
  | O => Fuel
  | S fuel =>
      if u64 (j + bl) <? zlen L then
        let* h := cmp_loop (S fuel) i j 0 in
        if h =? bl then
          let* h := ext_loop (S fuel) i j h in
          let* m := note m i j h in
          j_loop fuel i (u64 (j + (if h =? 0 then 1 else h))) m (dupe_count + 1) (if longest <? h then h else longest)
        else j_loop fuel i (u64 (j + (if h =? 0 then 1 else h))) m dupe_count longest
      else Ret (m, dupe_count, longest)
  end.
(** codedup.c 116-154 *)
Fixpoint i_loop (fuel : nat) (i : Z) (m : dmap) : out dmap :=
  match fuel with
  | O => Fuel
  | S fuel =>
      if i <? zlen L then
        let* (m, dupe_count, longest) := j_loop (S fuel) i (u64 (i + bl)) m 0 0 in
        i_loop fuel (u64 (i + (if dupe_count =? 0 then 1 else longest))) m
      else Ret m
  end.
(** codedup.c 115-155: one round of the outer loop unless blocklen_min + 1 wraps *)
Definition search (fuel : nat) : out dmap := if bl <? u64 (bl + 1) then i_loop fuel 0 [] else Ret [].

(** ** The report *)
(** codedup.c 162-165 *)
Fixpoint longest_loop (n : nat) (d : tgl (Z * Z)) (i longest : Z) : out Z :=
  match n with
  | O => Ret longest
  | S n =>
      let* x := tglist_get d i in
      longest_loop n d (i + 1) (if longest <? fst x then fst x else longest)
  end.
(** codedup.c 159-169 *)
Fixpoint collect (order : list Z) (m : dmap) (si_list : tgl (Z * Z)) : out (tgl (Z * Z)) :=
  match order with
  | [] => Ret si_list
  | k :: order =>
      match dfind k m with
      | None => UB
      | Some d =>
          let* longest := longest_loop (Z.to_nat (tcnt d)) d 0 0 in
          let* x := tglist_get d 0 in
          if negb (longest =? fst x) then UB
          else
            let* (_, si_list) := tglist_insert_sorted 8 (Some junk) sortitem_cmp si_list (longest, k) in
            collect order m si_list
      end
  end.
(** what lines 183-187 print: the length of the block, its first line, the number of
    duplicates and the first line of each, the lines of the block *)
Record dup := mkDup { dn : Z; dat : Z; dcnt : Z; dothers : list Z; dtext : list (list Z) }.
(** codedup.c 175-178: n entries from index j on, cnt counted so far *)
Fixpoint cnt_loop (n : nat) (d : tgl (Z * Z)) (len j cnt : Z) : out Z :=
  match n with
  | O => Ret cnt
  | S n =>
      let* x := tglist_get d j in
      if fst x <? len then Ret cnt else cnt_loop n d len (j + 1) (cnt + 1)
  end.
(** codedup.c 184-185 *)
Fixpoint others_loop (n : nat) (d : tgl (Z * Z)) (start j : Z) : out (list Z) :=
  match n with
  | O => Ret []
  | S n =>
      let* x := tglist_get d j in
      let* r := others_loop n d start (j + 1) in
      Ret (start + snd x :: r)
  end.
(** codedup.c 186-187 *)
Fixpoint text_loop (n : nat) (p : Z) : out (list (list Z)) :=
  match n with
  | O => Ret []
  | S n =>
      let* x := zread L p in
      let* r := text_loop n (p + 1) in
      Ret (snd x :: r)
  end.
(** codedup.c 170-188: n entries of si_list from index i on *)
Fixpoint print_loop (n : nat) (m : dmap) (start : Z) (si_list : tgl (Z * Z)) (i : Z) : out (list dup) :=
  match n with
  | O => Ret []
  | S n =>
      let* si := tglist_get si_list i in
      match dfind (snd si) m with
      | None => UB
      | Some d =>
          let* cnt := cnt_loop (Z.to_nat (tcnt d)) d (fst si) 0 0 in
          let* o := others_loop (Z.to_nat cnt) d start 0 in
          let* t := text_loop (Z.to_nat (fst si)) (snd si) in
          let* r := print_loop n m start si_list (i + 1) in
          Ret (mkDup (fst si) (start + snd si) cnt o t :: r)
      end
  end.
(** codedup.c 156-188 *)
Definition report (order : dmap -> list Z) (start : Z) (m : dmap) : out (list dup) :=
  let* si_list := collect (order m) m tglist_init in
  print_loop (Z.to_nat (tcnt si_list)) m start si_list 0.
End Search.

(** codedup.c 81-192; buf: the local array of 1024 bytes *)
Definition codedup (fuel : nat) (ws : bool) (bl start end_ : Z) (junk : Z -> Z * Z) (order : dmap -> list Z) (buf input : list Z) : out (list dup) :=
  let* L := read_loop fuel ws start end_ buf input 0 [] in
  let* m := search L bl junk fuel in
  report L junk order start m.
