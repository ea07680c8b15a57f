(** Property theorems about tglist and tgilist: C08, C09. *)
From Verif Require Import Base M_tglist S_tglist D_tglist P_tglist P_tgilist.

(** C08: every history with valid positions behaves as on a mathematical list, for every
    outcome of every allocation, with every access inside the block; the capacity is 0
    or 4*2^k and at least the count. *)
Theorem c08_tglist_refines_list :
  forall A isz, 1 <= isz -> forall h : list (talloc A * lop A),
    (2 * zlen h + 4) * isz < 2 ^ 64 -> tcaller_ok isz tglist_init h ->
    exists rs l xs, trun isz tglist_init h = Ret (rs, l) /\ lspec_run [] rs xs /\ treads l xs /\ tcapa_ok l /\
      map fst rs = map (fun p => (has_mem (fst p), snd p)) h.
Proof. exact @thistory. Qed.
Print Assumptions c08_tglist_refines_list.
Definition ex_th : list (talloc Z * lop Z) :=
  [(Some (fun _ => 9), LAdd 5); (None, LIns 3 0); (None, LAdd 7); (None, LAdd 8); (None, LAdd 1); (Some (fun i => i), LIns 6 2);
   (None, LSet 4 1); (None, LDel 0); (None, LGet 3)].
Example c08_example : tcaller_ok 8 tglist_init ex_th /\
  trun 8 tglist_init ex_th =
  Ret ([(true, LAdd 5, LInt 1); (false, LIns 3 0, LInt 1); (false, LAdd 7, LInt 1); (false, LAdd 8, LInt 1); (false, LAdd 1, LInt 0);
        (true, LIns 6 2, LInt 1); (false, LSet 4 1, LInt 1); (false, LDel 0, LInt 1); (false, LGet 3, LItem 8)],
       mkTg 4 8 [4; 6; 7; 8; 8; 5; 6; 7]).
Proof. split; [vm_compute; intuition discriminate|vm_compute; reflexivity]. Qed.

(** C09: the same for tgilist as long as the additions fit the index type (modulus im) *)
Theorem c09_tgilist_refines_list :
  forall A im ksz isz, 1 <= ksz -> 1 <= isz -> forall h : list ((talloc Z * talloc A) * lop A),
    zlen h <= im -> (2 * zlen h + 4) * ksz < 2 ^ 64 -> (2 * zlen h + 4) * isz < 2 ^ 64 -> gcaller_ok im ksz isz tgilist_init h ->
    exists rs x xs, grun im ksz isz tgilist_init h = Ret (rs, x) /\ lspec_run [] rs xs /\ greads x xs /\
      map fst rs = map (fun p => (both_mem (fst p), snd p)) h.
Proof. exact @ghistory. Qed.
Print Assumptions c09_tgilist_refines_list.
(** and whatever operation comes next, stored values stay in their slots *)
Theorem c09_values_never_move :
  forall A im ksz isz, 1 <= ksz -> 1 <= isz -> forall h rs (x : tgi A) al (o : lop A),
    zlen h < im -> (2 * (zlen h + 1) + 4) * ksz < 2 ^ 64 -> (2 * (zlen h + 1) + 4) * isz < 2 ^ 64 ->
    gcaller_ok im ksz isz tgilist_init h -> grun im ksz isz tgilist_init h = Ret (rs, x) -> lvalid (tgilist_getsize x) o ->
    exists r x', gexec im ksz isz al x o = Ret (r, x') /\ slots_kept x x' o.
Proof. exact @gslots_history. Qed.
Print Assumptions c09_values_never_move.
(** the guard is needed: with an 8-bit index type the 257th value aliases the first *)
Definition many (n : nat) : list ((talloc Z * talloc Z) * lop Z) :=
  map (fun k => ((Some (fun _ => 0), Some (fun _ => 0)), LAdd (Z.of_nat k))) (seq 0 n).
Theorem c09_index_type_overflow_refuted :
  exists h, gcaller_ok 256 1 8 tgilist_init h /\ zlen h = 257 /\
    match grun 256 1 8 tgilist_init h with Ret (_, x) => tgilist_get x 256 = Ret 0 | _ => False end /\ In (LAdd 256) (map snd h).
Proof.
  exists (many 257). split; [|split; [reflexivity|split; [vm_compute; reflexivity|]]].
  - vm_compute. tauto.
  - unfold many. rewrite map_map. cbn [snd]. change (LAdd 256) with ((fun x : nat => LAdd (Z.of_nat x)) 256%nat).
    apply (in_map (fun x : nat => LAdd (Z.of_nat x))). apply in_seq. lia.
Qed.
Print Assumptions c09_index_type_overflow_refuted.
Example c09_example :
  let al := (Some (fun _ => 0), Some (fun _ => 0)) in
  grun (2 ^ 32) 4 8 tgilist_init [(al, LAdd 5); (al, LIns 3 0); (al, LSet 9 1); (al, LDel 0); (al, LGet 0)] =
  Ret ([(true, LAdd 5, LInt 1); (true, LIns 3 0, LInt 1); (true, LSet 9 1, LInt 1); (true, LDel 0, LInt 1); (true, LGet 0, LItem 9)],
       mkTgi (mkTg 1 4 [0; 0; 0; 0]) (mkTg 2 4 [9; 3; 0; 0])).
Proof. reflexivity. Qed.
