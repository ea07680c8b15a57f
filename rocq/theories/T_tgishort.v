(** Property theorems about tgilist with a signed index type: C104. *)
From Verif Require Import Base M_tglist M_tgishort S_tglist D_tglist D_tgishort P_tglist P_tgilist P_tgishort.

(** C104: every history of at most half as many operations as the index type has values behaves as on a mathematical list *)
Theorem c104_signed_refines_list :
  forall A im ksz isz, 1 <= ksz -> 1 <= isz -> im <= 2 ^ 64 -> forall h : list ((talloc Z * talloc A) * lop A),
    zlen h <= im / 2 -> (2 * zlen h + 4) * ksz < 2 ^ 64 -> (2 * zlen h + 4) * isz < 2 ^ 64 -> scaller_ok im ksz isz tgilist_init h ->
    exists rs x xs, srun im ksz isz tgilist_init h = Ret (rs, x) /\ lspec_run [] rs xs /\ greads x xs /\
      map fst rs = map (fun p => (both_mem (fst p), snd p)) h.
Proof.
  intros A im ksz isz Hk Hi Him h Hl Lk Li Hc. pose proof (zlen_nonneg h).
  destruct (srun_same im ksz isz Hk Hi Him h tgilist_init [] [] []) as [-> C]; [split; try apply init_trep; try constructor; lia|constructor|change (zlen []) with 0; lia|change (zlen []) with 0; nia|change (zlen []) with 0; nia|exact Hc|].
  apply ghistory; try assumption. Z.div_mod_to_equations. lia.
Qed.
Print Assumptions c104_signed_refines_list.

(** the exact limit: of values added one after the other, as many as the index type has values in all, those in the first half are
    read back and reading any other one is an access outside the block *)
Theorem c104_limit :
  forall A im ksz isz, 1 <= ksz -> 1 <= isz -> im <= 2 ^ 64 -> forall ys : list ((talloc Z * talloc A) * A),
    zlen ys <= im -> (2 * zlen ys + 4) * ksz < 2 ^ 64 -> (2 * zlen ys + 4) * isz < 2 ^ 64 -> Forall (fun p => fst (fst p) <> None /\ snd (fst p) <> None) ys ->
    exists x, sadds im ksz isz tgilist_init ys = Ret x /\ tgilist_getsize x = zlen ys /\
      forall d pos, 0 <= pos < zlen ys -> tgilist_get x pos = if pos <? im / 2 then Ret (znth d (map snd ys) pos) else UB.
Proof.
  unfold talloc. intros A im ksz isz Hk Hi Him ys Hl Lk Li F. zpos.
  destruct (adds_ok im ksz isz Hk Hi Him ys tgilist_init [] (sinit_rep im ksz isz Hk Hi Him)) as (x & E & R); [exact Li|exact Lk|exact F|].
  cbn [app] in R. exists x. split; [exact E|]. assert (Ln : Z.of_nat (length (map snd ys)) = zlen ys) by (unfold zlen; now rewrite map_length).
  split; [destruct R as [_ I]; unfold tgilist_getsize; rewrite (r_cnt _ _ _ I), zlen_slots; exact Ln|].
  intros d pos Hp. destruct (srep_get im ksz isz Hk Hi Him x _ _ pos R ltac:(rewrite zlen_slots; lia)) as [G1 G2]. rewrite znth_slots in G1, G2 by lia.
  assert (im / 2 <= im) by (Z.div_mod_to_equations; lia). assert (Lm : zlen (map snd ys) = zlen ys) by (unfold zlen; now rewrite map_length). destruct (Z.ltb_spec pos (im / 2)) as [Hs|Hs].
  - rewrite sidx_small, Z.mod_small in G1 by lia. apply G1. lia.
  - apply G2. apply sidx_big; lia.
Qed.
Print Assumptions c104_limit.
Definition small_ys (n : nat) : list ((talloc Z * talloc Z) * Z) := map (fun k => ((Some (fun _ => 0), Some (fun _ => 0)), 10 + Z.of_nat k)) (seq 0 n).
Example c104_limit_ex : match sadds 8 1 8 tgilist_init (small_ys 6) with
  | Ret x => map (tgilist_get x) [0; 1; 2; 3; 4; 5] = [Ret 10; Ret 11; Ret 12; Ret 13; UB; UB] | _ => False end.
Proof. vm_compute. reflexivity. Qed.

(** refuted: "the index type could be chosen as e.g. short, if it's known that no more than 64K values will ever be added"
    (tgilist.h 24-25).  With a short, 40000 values are too many: the one at position 32768 cannot be read *)
Theorem c104_short_64k_refuted :
  exists ys : list ((talloc Z * talloc Z) * Z), zlen ys <= 65536 /\ Forall (fun p => fst (fst p) <> None /\ snd (fst p) <> None) ys /\
    exists x, sadds 65536 2 4 tgilist_init ys = Ret x /\ 32768 < tgilist_getsize x /\ tgilist_get x 32768 = UB.
Proof.
  assert (L : zlen (small_ys (Z.to_nat 40000)) = 40000) by (unfold zlen, small_ys; rewrite map_length, seq_length; lia).
  assert (F : Forall (fun p => fst (fst p) <> None /\ snd (fst p) <> None) (small_ys (Z.to_nat 40000))) by (unfold small_ys; apply Forall_map, Forall_forall; intros; cbn; split; discriminate).
  revert L F. generalize (small_ys (Z.to_nat 40000)). intros ys L F. exists ys. split; [lia|]. split; [exact F|].
  destruct (c104_limit Z 65536 2 4 ltac:(lia) ltac:(lia) ltac:(lia) ys) as (x & E & S & G); [rewrite L; lia|rewrite L; lia|rewrite L; lia|exact F|].
  rewrite L in *. exists x. split; [exact E|]. split; [lia|]. apply (G 0 32768). lia.
Qed.
Print Assumptions c104_short_64k_refuted.

(** tests/tgilist_insert_test.c, 99-120: passes when memory is available and never leaves a block, for 16384 values and up to 32767 *)
Theorem c104_insert_test :
  forall ai av N, 16001 <= N <= 32767 -> exists b, insert_test ai av N = Ret b /\ ((forall k, ai k <> None /\ av k <> None) -> b = true).
Proof. intros ai av N HN. destruct (test_ok ai av N ltac:(lia)) as (r & -> & H & _). apply H. lia. Qed.
Print Assumptions c104_insert_test.
(** refuted: with one value more the test reads outside the block of values *)
Theorem c104_insert_test_32768_refuted :
  forall ai av N, 32768 <= N < 65536 -> (forall k, ai k <> None /\ av k <> None) -> insert_test ai av N = UB.
Proof. intros ai av N HN M. destruct (test_ok ai av N ltac:(lia)) as (r & -> & _ & H). apply H; [lia|exact M]. Qed.
Print Assumptions c104_insert_test_32768_refuted.
(** the hypotheses hold for the numbers of the program; allocation failing at the first insertion: the assertion fails *)
Example c104_ex : (exists b, insert_test (fun _ => Some (fun _ => 0)) (fun _ => Some (fun _ => 0)) 16384 = Ret b /\ b = true) /\
  insert_test (fun _ => None) (fun _ => Some (fun _ => 0)) 16384 = Ret false.
Proof.
  split; [|vm_compute; reflexivity]. destruct (c104_insert_test (fun _ => Some (fun _ => 0)) (fun _ => Some (fun _ => 0)) 16384 ltac:(lia)) as (b & E & H). exists b. split; [exact E|]. apply H. intros _. split; discriminate.
Qed.
