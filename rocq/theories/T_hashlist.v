(** Property theorems about hashlist: C17, C18. *)
From Verif Require Import Base M_sblist D_sblist M_hashlist S_hashlist D_hashlist P_hashlist.

(** C17: after any additions, with any allocation outcomes, the bucket of a hash holds, in
    order, exactly the values whose addition returned 0 and whose hash is congruent;
    without allocation failure every addition returns 0 and the bucket is NULL exactly when
    nothing was added to it. *)
Theorem c17_hashlist_get :
  forall nb dsz l, 1 <= nb -> 1 <= dsz -> Forall (hadd_ok dsz) l -> (zlen l + 8) * dsz < 2 ^ 64 ->
  exists ds rs h, adds_run (hashlist_new nb dsz) l = Ret (ds, rs, h) /\
    (forall hash, 0 <= hash -> exists b, hashlist_get h hash = Ret b /\
       match b with None => bucket_vals nb hash ds = [] | Some s => reads_as s (bucket_vals nb hash ds) end) /\
    (Forall hadd_mem l -> ds = map (fun a => (snd (fst a), snd a)) l /\ rs = map (fun _ => 0) l /\
       forall hash, 0 <= hash -> (hashlist_get h hash = Ret None <-> bucket_vals nb hash ds = [])).
Proof. exact get_main. Qed.
Print Assumptions c17_hashlist_get.
Definition ex_hl : list hadd :=
  let j := Some (fun _ => 7) in
  [(true, j, 5, [1; 2]); (true, None, 3, [3; 4]); (true, j, 1, [5; 6]); (false, j, 2, [7; 8]); (true, j, 9, [9; 9])].
Example c17_example :
  Forall (hadd_ok 2) ex_hl /\
  match adds_run (hashlist_new 4 2) ex_hl with
  | Ret (ds, rs, _) => ds = [(5, [1; 2]); (1, [5; 6]); (9, [9; 9])] /\ rs = [0; 1; 0; -1; 0] /\
                       bucket_vals 4 13 ds = [[1; 2]; [5; 6]; [9; 9]]
  | _ => False
  end.
Proof. split; [repeat constructor; vm_compute; congruence|vm_compute; auto]. Qed.

(** C18: without allocation failure the calls of hashlist_next yield every value once, bucket
    by bucket, then NULL for ever: the first n calls, for every n *)
Theorem c18_hashlist_iteration :
  forall nb dsz l n, 1 <= nb < 2 ^ 32 -> 1 <= dsz -> Forall (hadd_ok dsz) l -> (zlen l + 8) * dsz < 2 ^ 64 -> zlen l < 2 ^ 63 ->
    Forall hadd_mem l ->
  exists ds rs h, adds_run (hashlist_new nb dsz) l = Ret (ds, rs, h) /\ ds = map (fun a => (snd (fst a), snd a)) l /\
    calls n h hashlist_iterator_init = Ret (firstn n (map Some (all_vals nb ds) ++ repeat None n)).
Proof. exact iter_main. Qed.
Print Assumptions c18_hashlist_iteration.
Example c18_example :
  let j := Some (fun _ => 7) in
  match adds_run (hashlist_new 4 1) [(true, j, 7, [1]); (true, j, 1, [2]); (true, j, 3, [3])] with
  | Ret (_, _, h) => calls 5 h hashlist_iterator_init = Ret [Some [2]; Some [1]; Some [3]; None; None]
  | _ => False
  end.
Proof. vm_compute. reflexivity. Qed.

(** with an allocation failure an empty bucket can stay behind: the first NULL comes before
    the stored value, the call after it returns the value; and hashlist_add returned 1, not
    the documented -1 *)
Theorem c18_empty_bucket_refuted :
  exists l h, Forall (hadd_ok 1) l /\ adds_run (hashlist_new 2 1) l = Ret ([(1, [5])], [1; 0], h) /\
    calls 3 h hashlist_iterator_init = Ret [None; Some [5]; None].
Proof.
  exists [(true, None, 0, [4]); (true, Some (fun _ => 0), 1, [5])]. eexists.
  split; [repeat constructor; vm_compute; congruence|]. split; [vm_compute; reflexivity|]. vm_compute. reflexivity.
Qed.
Print Assumptions c18_empty_bucket_refuted.
