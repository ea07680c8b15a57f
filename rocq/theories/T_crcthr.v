(** C97: crc32 in several threads. *)
From Verif Require Import Base M_crc32 S_crc32 D_crc32 P_crc32 M_crcthr P_crcthr.

(** C97: a thread that runs InitTables alone leaves the tables of InitTables, and all four pointers set *)
Theorem c97_alone poly : poly = POLY32 \/ poly = POLY32C -> exists ts, InitTables poly = Ret ts /\ alone start (init_acts poly) = Ret (mkSh [true; true; true; true] ts).
Proof.
  intros [-> | ->].
  - destruct (check_ok _ _ check32) as (ts & E & _). exists ts. split; [exact E|]. exact (ready_start POLY32 ts start32 E).
  - destruct (check_ok _ _ check32c) as (ts & E & _). exists ts. split; [exact E|]. exact (ready_start POLY32C ts start32c E).
Qed.
Print Assumptions c97_alone.
(** C97: once InitTables has been through, any number of threads may compute check values and call InitTables again, in
    any interleaving: nothing undefined happens, the tables stay as they are, and a thread that got as many turns as
    it has bytes is done and has the right value *)
Theorem c97_after_init poly s0 ws sched : poly = POLY32 \/ poly = POLY32C -> alone start (init_acts poly) = Ret s0 ->
  (forall data, In (WCrc data) ws -> bytes data) ->
  exists ths, interleave sched s0 (map (thread_of poly) ws) = Ret (s0, ths) /\ length ths = length ws /\
    forall n data u v, nth_error ws n = Some (WCrc data) -> (length data <= count_occ Nat.eq_dec sched n)%nat -> zlen u = 4 ->
    exists st c s', nth_error ths n = Some (TCrc (Fin st)) /\ Final (u ++ v) st = Ret (s', c ++ v) /\ zlen c = 4 /\ wire_bits c = crc poly data.
Proof.
  intros P A B. destruct (c97_alone poly P) as (ts & E & A'). rewrite A' in A. injection A as <-.
  assert (K : all_keep (InitTables poly) (init_acts poly) = true) by (destruct P as [-> | ->]; [exact acts32|exact acts32c]).
  assert (F : Forall (fine ts) ws). { apply Forall_forall. intros [n|data] I; cbn [fine]; [exact Logic.I|]. destruct (crc_value poly ts data [0; 0; 0; 0] [] P E (B data I) eq_refl) as (st & V & _). eauto. }
  destruct (run_way ts ws F sched (map (thread_of poly) ws) (fun _ => 0%nat)) as (ths & R & L & H); [now rewrite map_length|exact (start_way poly ts ws K E)|].
  exists ths. split; [exact R|]. split; [exact L|]. intros n data u v En C Lu. destruct (H n _ En) as (t & Et & W). cbn [Nat.add] in W. cbn [on_way] in W. destruct t as [l|p]; [contradiction|]. destruct W as [V N]. replace (length data - count_occ Nat.eq_dec sched n)%nat with 0%nat in N by lia.
  destruct (crc_value poly ts data u v P E (B data (nth_error_In _ _ En)) Lu) as (st & V' & c & s' & X & Lc & W). rewrite V' in V. destruct p as [st0|j i k]; [|destruct N]. cbn [eval] in V. injection V as ->. exists st, c, s'. auto.
Qed.
Print Assumptions c97_after_init.
Lemma early R : interleave [0; 0; 0; 0; 1]%nat start [TInit (Ptr 0 :: Ptr 1 :: Ptr 2 :: Ptr 3 :: R); TCrc (update_prog [97] Init)] =
  Ret (mkSh (repeat true 4) (repeat (zrepeat 0 256) 4), [TInit R; TCrc (Fin 0x00ffffff)]).
Proof. vm_compute. reflexivity. Qed.
(** C97: before InitTables has been through it is different, as its comment says: a thread may use a null pointer, or a
    table that is not filled yet *)
Theorem c97_during_init_refuted : (forall poly n data, data <> [] -> interleave [1%nat] start (map (thread_of poly) [WInit n; WCrc data]) = UB) /\
  exists sched st ths s c s', (1 <= count_occ Nat.eq_dec sched 1)%nat /\ interleave sched start (map (thread_of POLY32) [WInit 1; WCrc [97]]) = Ret (s, ths) /\
    nth_error ths 1 = Some (TCrc (Fin st)) /\ Final [0; 0; 0; 0] st = Ret (s', c) /\ wire_bits c <> crc POLY32 [97].
Proof.
  split.
  - intros poly n data D. cbn [map thread_of interleave nth_error]. destruct data as [|b0 [|b1 [|b2 [|b3 l]]]]; [congruence| | | |]; reflexivity.
  - exists [0; 0; 0; 0; 1]%nat, 0x00ffffff. eexists _, _, [0; 0; 0; 255], 0xff000000. split; [cbn; lia|]. split; [exact (early _)|]. split; [reflexivity|]. split; [reflexivity|]. intros Q. vm_compute in Q. discriminate Q.
Qed.
Print Assumptions c97_during_init_refuted.
(** two threads: one calls InitTables once more, the other one computes the CRC of "abcde"; turns in any order *)
Example c97_ex : (let* s := alone start (init_acts POLY32) in
  let* (_, t) := interleave [1; 0; 0; 1; 0; 1; 0; 1; 0; 1]%nat s (map (thread_of POLY32) [WInit 1; WCrc [97; 98; 99; 100; 101]]) in
  match nth_error t 1 with Some (TCrc (Fin st)) => Ret (Z.lxor st 0xffffffff) | _ => UB end) = Ret 0x8587d865.
Proof. vm_compute. reflexivity. Qed.
