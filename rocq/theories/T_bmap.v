(** Property theorems about bmap and hbmap: C10-C13.  Every statement is made for both value storages. *)
From Coq Require Import Sorting.
From Verif Require Import Base M_tglist S_tglist D_tglist P_tglist P_tgilist M_bmap S_bmap D_bmap P_bmap P_hbmap.

(** C10: for every total order, every conforming bsearch and every history (valid positions, any outcome of every
    allocation) no operation is undefined, the answers are those of a finite map, and in the end the positions
    enumerate strictly increasing keys with the map's values. *)
Theorem c10_bmap_is_map_tglist :
  forall K V ksz vsz cmp bs (h : list (talloc K * talloc V * mop K V)), let vo := vops_tglist V vsz in
    1 <= ksz -> 1 <= vsz -> total_order cmp -> bsearch_conforming bs ->
    (2 * zlen h + 4) * ksz < 2 ^ 64 -> (2 * zlen h + 4) * vsz < 2 ^ 64 -> bcaller_ok vo ksz cmp bs (bmap_init vo) h ->
    exists rs b m, brun vo ksz cmp bs has_mem (bmap_init vo) h = Ret (rs, b) /\ mspec_run cmp fempty rs m /\ bholds vo cmp bs b m /\
      map fst rs = map (fun x => (has_mem (fst (fst x)) && has_mem (snd (fst x)), snd x)) h.
Proof.
  intros K V ksz vsz cmp bs h vo Hk Hv HO HB H1 H2 HC. apply (bhistory vo has_mem (trepn vsz) (vgood_tglist vsz Hv) ksz Hk cmp HO bs HB); auto. apply trepn_init; auto. apply zlen_nonneg.
Qed.
Print Assumptions c10_bmap_is_map_tglist.
Theorem c10_bmap_is_map_tgilist :
  forall K V ksz vsz cmp bs (h : list (talloc K * (talloc Z * talloc V) * mop K V)), let vo := vops_tgilist V vsz in
    1 <= ksz -> 1 <= vsz -> total_order cmp -> bsearch_conforming bs -> zlen h <= 2 ^ 32 ->
    (2 * zlen h + 4) * ksz < 2 ^ 64 -> (2 * zlen h + 4) * vsz < 2 ^ 64 -> bcaller_ok vo ksz cmp bs (bmap_init vo) h ->
    exists rs b m, brun vo ksz cmp bs both_mem (bmap_init vo) h = Ret (rs, b) /\ mspec_run cmp fempty rs m /\ bholds vo cmp bs b m /\
      map fst rs = map (fun x => (has_mem (fst (fst x)) && both_mem (snd (fst x)), snd x)) h.
Proof.
  intros K V ksz vsz cmp bs h vo Hk Hv HO HB H0 H1 H2 HC. apply (bhistory vo both_mem (grepn vsz) (vgood_tgilist vsz Hv) ksz Hk cmp HO bs HB); auto. apply grepn_init; auto. split; auto. apply zlen_nonneg.
Qed.
Print Assumptions c10_bmap_is_map_tgilist.
Definition ls : (Z -> Z) -> list Z -> option Z := fun f l => lsearch f 0 l.
Definition am : talloc Z := Some (fun _ => 0).
Definition ex_bh : list (talloc Z * talloc Z * mop Z Z) :=
  map (fun o => (am, am, o)) [MInsert 7 70; MInsert 3 30; MInsert 9 90; MInsert 3 31; MGet 3; MDelete 0; MContains 3; MSetvalue 5 1; MFind 9; MFind 8].
Example c10_example : bsearch_conforming ls /\ total_order Z.sub /\ bcaller_ok (vops_tglist Z 8) 8 Z.sub ls (bmap_init (vops_tglist Z 8)) ex_bh /\
  match brun (vops_tglist Z 8) 8 Z.sub ls has_mem (bmap_init (vops_tglist Z 8)) ex_bh with
  | Ret (rs, b) => map snd rs = [MRInsert 0; MRInsert 0; MRInsert 2; MRInsert 0; MRVal (Some 31); MRKey 3; MRBool false; MRKey 9; MRFound (Some (9, 5)); MRFound None] /\
      ztake 2 (tmem (bkeys b)) = [7; 9]
  | _ => False
  end.
Proof. split; [apply lsearch_conforming|]. split; [apply sub_order|]. split; [vm_compute; intuition discriminate|]. vm_compute. auto. Qed.

(** C11: an insertion that loses its entry to a failed allocation leaves the map as it was; it returns -1
    unless the value list was the one that failed.  Otherwise the result denotes the entry. *)
Theorem c11_bmap_insert_failure_partial :
  forall K V ksz vsz cmp bs (h : list (talloc K * talloc V * mop K V)) rs b ka va k v, let vo := vops_tglist V vsz in
    1 <= ksz -> 1 <= vsz -> total_order cmp -> bsearch_conforming bs ->
    (2 * (zlen h + 1) + 4) * ksz < 2 ^ 64 -> (2 * (zlen h + 1) + 4) * vsz < 2 ^ 64 -> bcaller_ok vo ksz cmp bs (bmap_init vo) h ->
    brun vo ksz cmp bs has_mem (bmap_init vo) h = Ret (rs, b) ->
    exists m i b', mspec_run cmp fempty rs m /\ bmap_insert vo ksz cmp bs ka va b k v = Ret (i, b') /\
      (bholds vo cmp bs b' m /\ has_mem ka && has_mem va = false /\ (i = -1 \/ has_mem va = false) \/
       bholds vo cmp bs b' (fset cmp m k v) /\ insert_denotes vo cmp b' i k v).
Proof.
  intros K V ksz vsz cmp bs h rs b ka va k v vo Hk Hv HO HB H1 H2 HC E.
  apply (binsert_history vo has_mem (trepn vsz) (vgood_tglist vsz Hv) ksz Hk cmp HO bs HB h); auto. apply trepn_init; auto. pose proof (zlen_nonneg h). lia.
Qed.
Print Assumptions c11_bmap_insert_failure_partial.
(** bmap_insert_nocheck (the key is absent) reports every failure *)
Theorem c11_bmap_insert_nocheck_failure :
  forall K V ksz vsz cmp bs (h : list (talloc K * talloc V * mop K V)) rs b ka va k v, let vo := vops_tglist V vsz in
    1 <= ksz -> 1 <= vsz -> total_order cmp -> bsearch_conforming bs ->
    (2 * (zlen h + 1) + 4) * ksz < 2 ^ 64 -> (2 * (zlen h + 1) + 4) * vsz < 2 ^ 64 -> bcaller_ok vo ksz cmp bs (bmap_init vo) h ->
    brun vo ksz cmp bs has_mem (bmap_init vo) h = Ret (rs, b) -> bmap_contains cmp bs b k = false ->
    exists m r ss b', mspec_run cmp fempty rs m /\ bmap_insert_nocheck vo ksz cmp ka va b k v = Ret (r, ss, b') /\
      (bholds vo cmp bs b' m /\ has_mem ka && has_mem va = false /\ r = -1 \/
       bholds vo cmp bs b' (fset cmp m k v) /\ insert_denotes vo cmp b' r k v).
Proof.
  intros K V ksz vsz cmp bs h rs b ka va k v vo Hk Hv HO HB H1 H2 HC E Hn.
  apply (nocheck_history vo has_mem (trepn vsz) (vgood_tglist vsz Hv) ksz Hk cmp HO bs HB h); auto. apply trepn_init; auto. pose proof (zlen_nonneg h). lia.
Qed.
Print Assumptions c11_bmap_insert_nocheck_failure.
Theorem c11_bmap_insert_nocheck_failure_tgilist :
  forall K V ksz vsz cmp bs (h : list (talloc K * (talloc Z * talloc V) * mop K V)) rs b ka va k v, let vo := vops_tgilist V vsz in
    1 <= ksz -> 1 <= vsz -> total_order cmp -> bsearch_conforming bs -> zlen h < 2 ^ 32 ->
    (2 * (zlen h + 1) + 4) * ksz < 2 ^ 64 -> (2 * (zlen h + 1) + 4) * vsz < 2 ^ 64 -> bcaller_ok vo ksz cmp bs (bmap_init vo) h ->
    brun vo ksz cmp bs both_mem (bmap_init vo) h = Ret (rs, b) -> bmap_contains cmp bs b k = false ->
    exists m r ss b', mspec_run cmp fempty rs m /\ bmap_insert_nocheck vo ksz cmp ka va b k v = Ret (r, ss, b') /\
      (bholds vo cmp bs b' m /\ has_mem ka && both_mem va = false /\ r = -1 \/
       bholds vo cmp bs b' (fset cmp m k v) /\ insert_denotes vo cmp b' r k v).
Proof.
  intros K V ksz vsz cmp bs h rs b ka va k v vo Hk Hv HO HB H0 H1 H2 HC E Hn.
  apply (nocheck_history vo both_mem (grepn vsz) (vgood_tgilist vsz Hv) ksz Hk cmp HO bs HB h); auto. apply grepn_init; auto. pose proof (zlen_nonneg h). lia.
Qed.
Print Assumptions c11_bmap_insert_nocheck_failure_tgilist.
(** when the value list cannot grow, bmap_insert returns an index although nothing was stored *)
Theorem c11_bmap_insert_failure_refuted :
  exists i b', bmap_insert (vops_tglist Z 8) 8 Z.sub ls am None (bmap_init (vops_tglist Z 8)) 3 30 = Ret (i, b') /\
    i = 0 /\ bmap_getsize b' = 0 /\ bmap_get (vops_tglist Z 8) Z.sub ls b' 3 = Ret None.
Proof. do 2 eexists. split; [vm_compute; reflexivity|]. vm_compute. auto. Qed.
Print Assumptions c11_bmap_insert_failure_refuted.
Example c11_example :
  exists b', bmap_insert_nocheck (vops_tglist Z 8) 8 Z.sub am None (bmap_init (vops_tglist Z 8)) 3 30 = Ret (-1, 0, b') /\ bmap_getsize b' = 0.
Proof. eexists. split; vm_compute; reflexivity. Qed.

(** C12: hbmap, for every hash function that is equal on equal keys *)
Theorem c12_hbmap_is_map_tglist :
  forall K V ksz vsz cmp bs hash nb (l : list (talloc K * talloc V * mop K V)), let vo := vops_tglist V vsz in
    1 <= ksz -> 1 <= vsz -> total_order cmp -> bsearch_conforming bs -> hash_ok cmp hash -> 1 <= nb < 2 ^ 32 ->
    (2 * (zlen l + 1) + 4) * vsz < 2 ^ 64 -> (2 * (zlen l + 1) + 4) * ksz < 2 ^ 64 -> hcaller_ok vo ksz cmp bs hash (hbmap_init vo nb) l ->
    exists rs h m, hrun vo ksz cmp bs has_mem hash (hbmap_init vo nb) l = Ret (rs, h) /\ mspec_run cmp fempty rs m /\ hholds vo cmp bs hash h m /\
      map fst rs = map (fun x => (has_mem (fst (fst x)) && has_mem (snd (fst x)), snd x)) l.
Proof.
  intros K V ksz vsz cmp bs hash nb l vo Hk Hv HO HB HH Hnb H1 H2 HC.
  apply (hhistory vo has_mem (trepn vsz) (vgood_tglist vsz Hv) ksz Hk cmp HO bs HB hash HH nb Hnb l); auto. apply trepn_init; auto. pose proof (zlen_nonneg l). lia.
Qed.
Print Assumptions c12_hbmap_is_map_tglist.
Theorem c12_hbmap_is_map_tgilist :
  forall K V ksz vsz cmp bs hash nb (l : list (talloc K * (talloc Z * talloc V) * mop K V)), let vo := vops_tgilist V vsz in
    1 <= ksz -> 1 <= vsz -> total_order cmp -> bsearch_conforming bs -> hash_ok cmp hash -> 1 <= nb < 2 ^ 32 -> zlen l < 2 ^ 32 ->
    (2 * (zlen l + 1) + 4) * vsz < 2 ^ 64 -> (2 * (zlen l + 1) + 4) * ksz < 2 ^ 64 -> hcaller_ok vo ksz cmp bs hash (hbmap_init vo nb) l ->
    exists rs h m, hrun vo ksz cmp bs both_mem hash (hbmap_init vo nb) l = Ret (rs, h) /\ mspec_run cmp fempty rs m /\ hholds vo cmp bs hash h m /\
      map fst rs = map (fun x => (has_mem (fst (fst x)) && both_mem (snd (fst x)), snd x)) l.
Proof.
  intros K V ksz vsz cmp bs hash nb l vo Hk Hv HO HB HH Hnb H0 H1 H2 HC.
  apply (hhistory vo both_mem (grepn vsz) (vgood_tgilist vsz Hv) ksz Hk cmp HO bs HB hash HH nb Hnb l); auto. apply grepn_init; auto. pose proof (zlen_nonneg l). lia.
Qed.
Print Assumptions c12_hbmap_is_map_tgilist.
(** insertion's result: -1 and an unchanged map after a failed allocation, else a valid iterator of the entry *)
Theorem c12_hbmap_insert_result :
  forall K V ksz vsz cmp bs hash nb (l : list (talloc K * talloc V * mop K V)) rs h ka va k v, let vo := vops_tglist V vsz in
    1 <= ksz -> 1 <= vsz -> total_order cmp -> bsearch_conforming bs -> hash_ok cmp hash -> 1 <= nb < 2 ^ 32 ->
    (2 * (zlen l + 1) + 4) * vsz < 2 ^ 64 -> (2 * (zlen l + 1) + 4) * ksz < 2 ^ 64 -> hcaller_ok vo ksz cmp bs hash (hbmap_init vo nb) l ->
    hrun vo ksz cmp bs has_mem hash (hbmap_init vo nb) l = Ret (rs, h) ->
    (forall b, zread h (buckindex hash h k) = Ret b -> bmap_getsize b < 2 ^ 32 - 1) ->
    exists m it h', mspec_run cmp fempty rs m /\ hbmap_insert vo ksz cmp bs hash ka va h k v = Ret (it, h') /\
      (it = SIZE_MAX /\ hholds vo cmp bs hash h' m /\ has_mem ka && has_mem va = false \/
       it <> SIZE_MAX /\ hholds vo cmp bs hash h' (fset cmp m k v) /\ viter h' it /\
       exists k', hbmap_getkey h' it = Ret k' /\ hbmap_getval vo h' it = Ret v /\ cmp k k' = 0).
Proof.
  intros K V ksz vsz cmp bs hash nb l rs h ka va k v vo Hk Hv HO HB HH Hnb H1 H2 HC.
  apply (hinsert_history vo has_mem (trepn vsz) (vgood_tglist vsz Hv) ksz Hk cmp HO bs HB hash HH nb Hnb l); auto. apply trepn_init; auto. pose proof (zlen_nonneg l). lia.
Qed.
Print Assumptions c12_hbmap_insert_result.
Definition ex_hash (k : Z) : Z := k mod 5.
Definition ex_hh : list (talloc Z * talloc Z * mop Z Z) :=
  map (fun o => (am, am, o)) [MInsert 7 70; MInsert 3 30; MInsert 12 90; MInsert 3 31; MGet 3; MFind 12; MFind 8; MInsert 2 5; MDelete (2 ^ 33 + 1); MSetvalue 4 (2 ^ 33)].
Example c12_example : hash_ok Z.sub ex_hash /\ hcaller_ok (vops_tglist Z 8) 8 Z.sub ls ex_hash (hbmap_init (vops_tglist Z 8) 4) ex_hh /\
  match hrun (vops_tglist Z 8) 8 Z.sub ls has_mem ex_hash (hbmap_init (vops_tglist Z 8) 4) ex_hh with
  | Ret (rs, h) => map snd rs = [MRInsert (2 ^ 33); MRInsert (3 * 2 ^ 32); MRInsert (2 ^ 33 + 1); MRInsert (3 * 2 ^ 32); MRVal (Some 31); MRFound (Some (12, 90)); MRFound None; MRInsert (2 ^ 33); MRKey 7; MRKey 2] /\
      hsizes h = [0; 0; 2; 1]
  | _ => False
  end.
Proof.
  split; [|split; [|vm_compute; auto]].
  - split; unfold ex_hash; [intros k; pose proof (Z.mod_pos_bound k 5); lia|]. intros k k' E. f_equal. lia.
  - vm_compute. intuition discriminate.
Qed.

(** C13: the loop visits the valid iterators, each once, in increasing order, and ends; the body may change the
    map as long as it leaves the bucket sizes alone *)
Theorem c13_foreach_visits_each_once :
  forall K V ksz vsz cmp bs hash nb (l : list (talloc K * talloc V * mop K V)) rs h body fuel, let vo := vops_tglist V vsz in
    1 <= ksz -> 1 <= vsz -> total_order cmp -> bsearch_conforming bs -> hash_ok cmp hash -> 1 <= nb < 2 ^ 32 ->
    (2 * (zlen l + 1) + 4) * vsz < 2 ^ 64 -> (2 * (zlen l + 1) + 4) * ksz < 2 ^ 64 -> hcaller_ok vo ksz cmp bs hash (hbmap_init vo nb) l ->
    hrun vo ksz cmp bs has_mem hash (hbmap_init vo nb) l = Ret (rs, h) -> htotal h < Z.of_nat fuel ->
    (forall h1 it, hsizes h1 = hsizes h -> iter_valid h1 it = Ret true -> exists h2, body h1 it = Ret h2 /\ hsizes h2 = hsizes h) ->
    exists L h', hbmap_foreach fuel body h = Ret (L, h') /\ hsizes h' = hsizes h /\ StronglySorted Z.lt L /\ (forall it, In it L <-> viter h it).
Proof.
  intros K V ksz vsz cmp bs hash nb l rs h body fuel vo Hk Hv HO HB HH Hnb H1 H2 HC.
  apply (hforeach_history vo has_mem (trepn vsz) (vgood_tglist vsz Hv) ksz Hk cmp HO bs HB hash HH nb Hnb l); auto. apply trepn_init; auto. pose proof (zlen_nonneg l). lia.
Qed.
Print Assumptions c13_foreach_visits_each_once.
(** the documented deletion loop empties the map *)
Theorem c13_delete_loop_empties :
  forall K V ksz vsz cmp bs hash nb (l : list (talloc K * talloc V * mop K V)) rs h fuel f2, let vo := vops_tglist V vsz in
    1 <= ksz -> 1 <= vsz -> total_order cmp -> bsearch_conforming bs -> hash_ok cmp hash -> 1 <= nb < 2 ^ 32 ->
    (2 * (zlen l + 1) + 4) * vsz < 2 ^ 64 -> (2 * (zlen l + 1) + 4) * ksz < 2 ^ 64 -> hcaller_ok vo ksz cmp bs hash (hbmap_init vo nb) l ->
    hrun vo ksz cmp bs has_mem hash (hbmap_init vo nb) l = Ret (rs, h) -> zlen h < Z.of_nat fuel -> Forall (fun s => s < Z.of_nat f2) (hsizes h) ->
    exists L h', hbmap_foreach fuel (delete_body vo ksz f2) h = Ret (L, h') /\ Forall (eq 0) (hsizes h') /\ hholds vo cmp bs hash h' fempty.
Proof.
  intros K V ksz vsz cmp bs hash nb l rs h fuel f2 vo Hk Hv HO HB HH Hnb H1 H2 HC.
  apply (hdelete_history vo has_mem (trepn vsz) (vgood_tglist vsz Hv) ksz Hk cmp HO bs HB hash HH nb Hnb l); auto. apply trepn_init; auto. pose proof (zlen_nonneg l). lia.
Qed.
Print Assumptions c13_delete_loop_empties.
Example c13_example :
  match hrun (vops_tglist Z 8) 8 Z.sub ls has_mem ex_hash (hbmap_init (vops_tglist Z 8) 4) ex_hh with
  | Ret (_, h) =>
    hbmap_foreach 9 (fun h _ => Ret h) h = Ret ([2 ^ 33; 2 ^ 33 + 1; 3 * 2 ^ 32], h) /\
    match hbmap_foreach 9 (delete_body (vops_tglist Z 8) 8 9) h with Ret (L, h') => L = [2 ^ 33; 3 * 2 ^ 32] /\ hsizes h' = [0; 0; 0; 0] | _ => False end
  | _ => False
  end.
Proof. vm_compute. auto. Qed.
