(** Model of src/hashlist/hashlist.c and hashlist_iterator.c on top of the sblist model.

    hashlist_new's and sblist_new's struct allocations: an outcome (bool) where it
    matters (hashlist_add), otherwise assumed to succeed.  A bucket pointer is
    [option sbl], None = NULL. *)
From Verif Require Import Base M_sblist.

(** include/hashlist.h 11-15; bucketcount is the length of the array *)
Record hashlist := mkHl { hbuckets : list (option sbl); hdatasize : Z }.
(** hashlist.c 4-15 *)
Definition hashlist_new (bucketcount datasize : Z) : hashlist := mkHl (zrepeat None bucketcount) datasize.
(** hashlist.c 18-25; newok: sblist_new's malloc succeeds, al: sblist_add's realloc.
    Division by bucketcount 0 is UB *)
Definition hashlist_add (newok : bool) (al : alloc) (h : hashlist) (hash : Z) (value : list Z) : out (Z * hashlist) :=
  if zlen (hbuckets h) =? 0 then UB
  else
    let dstbkt := hash mod zlen (hbuckets h) in
    let* b := zread (hbuckets h) dstbkt in
    let* b := match b with
              | Some l => Ret (Some l)
              | None => if newok then let* l := sblist_init (hdatasize h) 8 in Ret (Some l) else Ret None
              end in
    match b with
    | None => Ret (-1, h)
    | Some l =>
        let* (r, l) := sblist_add al l value in
        let* bs := zwrite (hbuckets h) dstbkt (Some l) in
        Ret ((if r =? 0 then 1 else 0), mkHl bs (hdatasize h))
    end.
(** hashlist.c 28-30 *)
Definition hashlist_get (h : hashlist) (hash : Z) : out (option sbl) :=
  if zlen (hbuckets h) =? 0 then UB else zread (hbuckets h) (hash mod zlen (hbuckets h)).

(** include/hashlist.h 17-24: the two positions of a hashlist_iterator *)
Record hiter := mkHi { hpos : Z; hbpos : Z }.
(** hashlist_iterator.c 14-17 *)
Definition hashlist_iterator_init : hiter := mkHi (-1) (-1).
(** hashlist_iterator.c 9: the while loop *)
Fixpoint bucket_scan (fuel : nat) (bs : list (option sbl)) (pos : Z) : out Z :=
  match fuel with
  | O => Fuel
  | S fuel =>
      if u64 pos <? zlen bs then
        let* b := zread bs pos in
        match b with None => bucket_scan fuel bs (pos + 1) | Some _ => Ret pos end
      else Ret pos
  end.
(** hashlist_iterator.c 7-12: bucket (None = NULL) and new position *)
Definition hashlist_bucket_next (h : hashlist) (pos : Z) : out (option sbl * Z) :=
  let* pos := bucket_scan (S (length (hbuckets h))) (hbuckets h) (pos + 1) in
  if u64 pos <? zlen (hbuckets h) then
    let* b := zread (hbuckets h) pos in Ret (b, pos)
  else Ret (None, pos).
(** hashlist_iterator.c 19-27; the returned pointer is an item of a bucket: its bytes.
    Using a NULL bucket is UB *)
Definition hashlist_next (h : hashlist) (it : hiter) : out (option (list Z) * hiter) :=
  if zlen (hbuckets h) <=? hbpos it then Ret (None, it)
  else
    let pos := hpos it + 1 in
    let* adv := (if hbpos it =? -1 then Ret true
                 else
                   let* b := zread (hbuckets h) (hbpos it) in
                   match b with None => UB | Some l => Ret (cnt l <=? u64 pos) end) in
    let* (stop, pos, bpos) :=
      (if adv then
         let* (b, bpos) := hashlist_bucket_next h (hbpos it) in
         Ret (match b with None => true | Some _ => false end, 0, bpos)
       else Ret (false, pos, hbpos it)) in
    if stop : bool then Ret (None, mkHi pos bpos)
    else
      let* b := zread (hbuckets h) bpos in
      match b with
      | None => UB
      | Some l =>
          match sblist_get l pos with
          | None => Ret (None, mkHi pos bpos)
          | Some off => let* x := zreads (mem l) off (isz l) in Ret (Some x, mkHi pos bpos)
          end
      end.
