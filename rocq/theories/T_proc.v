(** C66 and C67: process_open, process_close, daemonize. *)
From Verif Require Import Base M_proc P_proc.

Definition std_open (t : table) : Prop := is_open t 0 <> None /\ is_open t 1 <> None /\ is_open t 2 <> None.

(** case analysis on descriptor numbers, dropping the impossible cases at once *)
Ltac dcase := repeat match goal with |- context [?x =? ?y] => destruct (Z.eqb_spec x y); try (exfalso; congruence); try subst x end; congruence.
Lemma neq x y : x <> y -> (x =? y) = false.
Proof. apply Z.eqb_neq. Qed.
Lemma three_distinct (a b c : Z) : a <> b -> a <> c -> b <> c -> NoDup [a; b; c].
Proof. intros. repeat constructor; cbn [In]; intuition congruence. Qed.

Lemma open_cases fails lim k t : std_open t -> fails SInit = false ->
  process_open fails lim k t = Ret (Failed t) /\ ((exists s, fails s = true) \/ fst (fst (pipes fails lim 3 0 k t [])) = false) \/
  exists a b c t' child, process_open fails lim k t = Ret (Opened t' [a; b; c] child) /\
    NoDup [a; b; c] /\ is_open t a = None /\ is_open t b = None /\ is_open t c = None /\ zlen t' = zlen t /\ zlen child = zlen t /\
    (forall fd, is_open t' fd = if fd =? a then Some (PipeW k) else if fd =? b then Some (PipeR (k + 1)) else if fd =? c then Some (PipeR (k + 2)) else is_open t fd) /\
    (forall fd, is_open child fd = if fd =? 0 then Some (PipeR k) else if fd =? 1 then Some (PipeW (k + 1)) else if fd =? 2 then Some (PipeW (k + 2)) else is_open t fd).
Proof.
  intros (O0 & O1 & O2) FI. unfold process_open. rewrite FI. match goal with |- context [existsb ?f ?l] => destruct (existsb f l) eqn:EX; [left; split; [reflexivity|]; left; apply existsb_exists in EX as (i & _ & EX); try (apply orb_prop in EX as [EX|EX]); eauto|clear EX] end.
  pose proof (pipes_made fails lim t 3 0 k t []) as M. destruct (pipes fails lim 3 0 k t []) as [[ok t1] ends] eqn:EP. assert (M0 : made t t1 ends) by (apply M; repeat split; intros; contradiction || reflexivity). clear M.
  rewrite (made_cleanup t t1 ends M0 O0). destruct ok; cbn [negb]; [|left; split; [reflexivity|now right]]. cbv zeta. match goal with |- context [existsb ?f ?l] => destruct (existsb f l) eqn:EX; [left; split; [reflexivity|]; left; apply existsb_exists in EX as (i & _ & EX); try (apply orb_prop in EX as [EX|EX]); eauto|clear EX] end. match goal with |- context [existsb ?f ?l] => destruct (existsb f l) eqn:EX; [left; split; [reflexivity|]; left; apply existsb_exists in EX as (i & _ & EX); try (apply orb_prop in EX as [EX|EX]); eauto|clear EX] end.
  cbn [pipes] in EP.
  destruct (pipe _ lim t _) as [[[r0 w0] u0]|] eqn:P0; [|discriminate]. destruct (pipe _ lim u0 _) as [[[r1 w1] u1]|] eqn:P1; [|discriminate]. destruct (pipe _ lim u1 _) as [[[r2 w2] u2]|] eqn:P2; [|discriminate]. injection EP as <- <-. cbn [app] in *. change (0 + 1 + 1) with 2 in *. change (0 + 1) with 1 in *.
  cbn [map app fold_left]. change (znth 0 pipeends 0) with 0. change (znth 0 pipeends 1) with 1. change (znth 0 pipeends 2) with 1. change (znth 0 [r0; w0; r1; w1; r2; w2] (2 * 0 + 0)) with r0. change (znth 0 [r0; w0; r1; w1; r2; w2] (2 * 1 + 1)) with w1. change (znth 0 [r0; w0; r1; w1; r2; w2] (2 * 2 + 1)) with w2. change (znth 0 [r0; w0; r1; w1; r2; w2] (2 * 0 + (1 - 0))) with w0. change (znth 0 [r0; w0; r1; w1; r2; w2] (2 * 1 + (1 - 1))) with r1. change (znth 0 [r0; w0; r1; w1; r2; w2] (2 * 2 + (1 - 1))) with r2.
  rewrite Z.add_0_r in P0. apply pipe_ok in P0 as (D0 & Nr0 & Nw0 & Rr0 & Rw0 & L0 & Q0). apply pipe_ok in P1 as (D1 & Nr1 & Nw1 & Rr1 & Rw1 & L1 & Q1). apply pipe_ok in P2 as (D2 & Nr2 & Nw2 & Rr2 & Rw2 & L2 & Q2). 
  rewrite Q0 in Nr1, Nw1. rewrite Q1, !Q0 in Nr2, Nw2. 
  assert (DX : forall (x y : Z) (o : obj) (u : option obj), (if x =? y then Some o else u) = None -> x <> y /\ u = None) by (intros x y o u; destruct (Z.eqb_spec x y); [discriminate|auto]).
  apply DX in Nr1 as (? & Nr1). apply DX in Nr1 as (? & Nr1). apply DX in Nw1 as (? & Nw1). apply DX in Nw1 as (? & Nw1). do 4 apply DX in Nr2 as (? & Nr2). do 4 apply DX in Nw2 as (? & Nw2).
  assert (NS : forall x, is_open t x = None -> x <> 0 /\ x <> 1 /\ x <> 2) by (intros x X; repeat split; intros ->; congruence).
  pose proof (NS _ Nr0) as (? & ? & ?). pose proof (NS _ Nw0) as (? & ? & ?). pose proof (NS _ Nr1) as (? & ? & ?). pose proof (NS _ Nw1) as (? & ? & ?). pose proof (NS _ Nr2) as (? & ? & ?). pose proof (NS _ Nw2) as (? & ? & ?).
  assert (Q : forall i, is_open u2 i = if i =? r2 then Some (PipeR (k + 2)) else if i =? w2 then Some (PipeW (k + 2)) else if i =? r1 then Some (PipeR (k + 1)) else if i =? w1 then Some (PipeW (k + 1)) else if i =? r0 then Some (PipeR k) else if i =? w0 then Some (PipeW k) else is_open t i) by (intros i; now rewrite Q2, Q1, Q0).
  clear Q0 Q1 Q2 DX NS. assert (E2 : is_open t 2 <> None) by exact O2. destruct (is_open t 2) as [o2|] eqn:Eo2; [|congruence]. apply open_range in Eo2 as R2'. clear E2.
  assert (Hlen : zlen u2 = zlen t) by congruence.
  set (c0 := close (close (close u2 0) 1) 2). assert (C0 : forall i, is_open c0 i = if i =? 2 then None else if i =? 1 then None else if i =? 0 then None else is_open u2 i) by (intros i; unfold c0; now rewrite !open_close). assert (Lc0 : zlen c0 = zlen t) by (unfold c0; now rewrite !close_len). 
  cbn [actions]. fold c0. rewrite C0. rewrite (neq r0 2) by congruence. rewrite (neq r0 1) by congruence. rewrite (neq r0 0) by congruence. rewrite Q. rewrite (neq r0 r2) by congruence. rewrite (neq r0 w2) by congruence. rewrite (neq r0 r1) by congruence. rewrite (neq r0 w1) by congruence. rewrite Z.eqb_refl. 
  rewrite Lc0. replace (0 <? zlen t) with true by (clear - R2'; lia). change ((0 <=? 0) && true) with true. cbv iota.
  set (c1 := set c0 0 (Some (PipeR k))). assert (C1 : forall i, is_open c1 i = if i =? 0 then Some (PipeR k) else is_open c0 i) by (intros i; apply open_set; clear - R2' Lc0; lia). assert (Lc1 : zlen c1 = zlen t) by (unfold c1; rewrite set_len; clear - R2' Lc0; lia).
  rewrite C1, C0. rewrite (neq w1 2) by congruence. rewrite (neq w1 1) by congruence. rewrite (neq w1 0) by congruence. rewrite Q. rewrite (neq w1 r2) by congruence. rewrite (neq w1 w2) by congruence. rewrite (neq w1 r1) by congruence. rewrite Z.eqb_refl.
  rewrite Lc1. replace (1 <? zlen t) with true by (clear - R2'; lia). change ((0 <=? 1) && true) with true. cbv iota.
  set (c2 := set c1 1 (Some (PipeW (k + 1)))). assert (C2 : forall i, is_open c2 i = if i =? 1 then Some (PipeW (k + 1)) else is_open c1 i) by (intros i; apply open_set; clear - R2' Lc1; lia). assert (Lc2 : zlen c2 = zlen t) by (unfold c2; rewrite set_len; clear - R2' Lc1; lia).
  rewrite C2, C1, C0. rewrite (neq w2 2) by congruence. rewrite (neq w2 1) by congruence. rewrite (neq w2 0) by congruence. rewrite Q. rewrite (neq w2 r2) by congruence. rewrite Z.eqb_refl.
  rewrite Lc2. replace (2 <? zlen t) with true by (clear - R2'; lia). change ((0 <=? 2) && true) with true. cbv iota.
  set (c3 := set c2 2 (Some (PipeW (k + 2)))). assert (C3 : forall i, is_open c3 i = if i =? 2 then Some (PipeW (k + 2)) else is_open c2 i) by (intros i; apply open_set; clear - R2' Lc2; lia). assert (Lc3 : zlen c3 = zlen t) by (unfold c3; rewrite set_len; clear - R2' Lc2; lia).
  destruct (fails SSpawn) eqn:ES; [left; split; [reflexivity|eauto]|]. right. exists w0, r1, r2. do 2 eexists. split; [reflexivity|]. split. { apply three_distinct; congruence. }
  split; [exact Nw0|]. split; [exact Nr1|]. split; [exact Nr2|]. split; [now rewrite !close_len|]. split; [now rewrite !close_len|]. split.
  - intros fd. rewrite !open_close, Q. clear C0 C1 C2 C3 Q. dcase.
  - intros fd. rewrite !open_close, C3, C2, C1, C0, Q. clear C0 C1 C2 C3 Q. dcase.
Qed.
(** C66: whichever step fails (but the initialisation), all is as before; on success exactly the three
    descriptors in p->fds are new, and the child differs from the parent before only in 0, 1 and 2 *)
Theorem c66_open fails lim k t : std_open t -> fails SInit = false ->
  process_open fails lim k t = Ret (Failed t) \/
  exists a b c t' child, process_open fails lim k t = Ret (Opened t' [a; b; c] child) /\
    NoDup [a; b; c] /\ is_open t a = None /\ is_open t b = None /\ is_open t c = None /\ zlen t' = zlen t /\ zlen child = zlen t /\
    (forall fd, is_open t' fd = if fd =? a then Some (PipeW k) else if fd =? b then Some (PipeR (k + 1)) else if fd =? c then Some (PipeR (k + 2)) else is_open t fd) /\
    (forall fd, is_open child fd = if fd =? 0 then Some (PipeR k) else if fd =? 1 then Some (PipeW (k + 1)) else if fd =? 2 then Some (PipeW (k + 2)) else is_open t fd).
Proof. intros S I. destruct (open_cases fails lim k t S I) as [(E & _)|E]; [now left|now right]. Qed.
Print Assumptions c66_open.
(** C66: the child has one end of each new pipe and the parent the other one *)
Theorem c66_wiring fails lim k t t' fds child : std_open t -> fails SInit = false ->
  (forall fd i, 0 <= i < 3 -> is_open t fd <> Some (PipeR (k + i)) /\ is_open t fd <> Some (PipeW (k + i))) ->
  process_open fails lim k t = Ret (Opened t' fds child) ->
  (forall fd, (is_open child fd = Some (PipeR k) <-> fd = 0) /\ (is_open child fd = Some (PipeW (k + 1)) <-> fd = 1) /\ (is_open child fd = Some (PipeW (k + 2)) <-> fd = 2)) /\
  (forall fd, is_open child fd <> Some (PipeW k) /\ is_open child fd <> Some (PipeR (k + 1)) /\ is_open child fd <> Some (PipeR (k + 2))) /\
  (forall fd, (is_open t' fd = Some (PipeW k) <-> nth_error fds 0 = Some fd) /\ (is_open t' fd = Some (PipeR (k + 1)) <-> nth_error fds 1 = Some fd) /\ (is_open t' fd = Some (PipeR (k + 2)) <-> nth_error fds 2 = Some fd)) /\
  (forall fd, is_open t' fd <> Some (PipeR k) /\ is_open t' fd <> Some (PipeW (k + 1)) /\ is_open t' fd <> Some (PipeW (k + 2))).
Proof.
  intros S I F E. destruct (c66_open fails lim k t S I) as [E'|(a & b & c & u & ch & E' & D & _ & _ & _ & _ & _ & Hu & Hc)]; rewrite E' in E; [discriminate|]. injection E as <- <- <-.
  assert (Hab : a <> b /\ a <> c /\ b <> c). { inversion_clear D as [|? ? A D']. inversion_clear D' as [|? ? B _]. cbn [In] in A, B. intuition congruence. }
  assert (X : forall x, Some (PipeR x) = Some (PipeW x) -> False) by discriminate.
  split; [|split; [|split]]; intros fd; pose proof (F fd 0 ltac:(lia)) as (F0 & F0'); pose proof (F fd 1 ltac:(lia)) as (F1 & F1'); pose proof (F fd 2 ltac:(lia)) as (F2 & F2'); rewrite Z.add_0_r in F0, F0'; rewrite ?Hc, ?Hu; cbn [nth_error].
  - destruct (Z.eqb_spec fd 0) as [->|]; [repeat split; congruence || lia || (intros Q; injection Q; lia)|]. destruct (Z.eqb_spec fd 1) as [->|]; [repeat split; congruence || lia || (intros Q; injection Q; lia)|]. destruct (Z.eqb_spec fd 2) as [->|]; [repeat split; congruence || lia || (intros Q; injection Q; lia)|]. repeat split; congruence.
  - destruct (Z.eqb_spec fd 0) as [->|]; [repeat split; intros Q; discriminate || (injection Q; lia)|]. destruct (Z.eqb_spec fd 1) as [->|]; [repeat split; intros Q; discriminate || (injection Q; lia)|]. destruct (Z.eqb_spec fd 2) as [->|]; [repeat split; intros Q; discriminate || (injection Q; lia)|]. repeat split; congruence.
  - destruct Hab as (? & ? & ?). destruct (Z.eqb_spec fd a) as [->|]; [repeat split; congruence || (intros Q; injection Q; lia)|]. destruct (Z.eqb_spec fd b) as [->|]; [repeat split; congruence || (intros Q; injection Q; lia)|]. destruct (Z.eqb_spec fd c) as [->|]; [repeat split; congruence || (intros Q; injection Q; lia)|]. repeat split; congruence.
  - destruct (Z.eqb_spec fd a) as [->|]; [repeat split; intros Q; discriminate || (injection Q; lia)|]. destruct (Z.eqb_spec fd b) as [->|]; [repeat split; intros Q; discriminate || (injection Q; lia)|]. destruct (Z.eqb_spec fd c) as [->|]; [repeat split; intros Q; discriminate || (injection Q; lia)|]. repeat split; congruence.
Qed.
Print Assumptions c66_wiring.
(** C66: it succeeds if no step fails and six descriptors are free *)
Theorem c66_succeeds fails lim k t : std_open t -> (forall s, fails s = false) -> 0 <= lim <= zlen t -> 6 <= free lim t ->
  exists t' fds child, process_open fails lim k t = Ret (Opened t' fds child).
Proof.
  intros S F L N. assert (P : forall j u, zlen u = zlen t -> 2 <= free lim u -> exists r w u', pipe false lim u j = Some (r, w, u') /\ free lim u' = free lim u - 2 /\ zlen u' = zlen t).
  { intros j u Lu Fu. unfold pipe. destruct (newfd_free lim u (PipeR j)) as (r & -> & F1 & L1); [lia|lia|]. destruct (newfd_free lim (set u r (Some (PipeR j))) (PipeW j)) as (w & -> & F2 & L2); [lia|lia|]. do 3 eexists. split; [reflexivity|]. lia. }
  destruct (open_cases fails lim k t S (F _)) as [(_ & [(s & E)|E])|(a & b & c & u & ch & E & _)]; [congruence| |eauto].
  destruct (P (k + 0) t eq_refl ltac:(lia)) as (r0 & w0 & u0 & E0 & G0 & L0). destruct (P (k + 1) u0 L0 ltac:(lia)) as (r1 & w1 & u1 & E1 & G1 & L1). destruct (P (k + 2) u1 L1 ltac:(lia)) as (r2 & w2 & u2 & E2 & G2 & L2).
  cbn [pipes] in E. rewrite F, E0, F in E. change (0 + 1) with 1 in E. rewrite E1, F in E. change (1 + 1) with 2 in E. rewrite E2 in E. discriminate.
Qed.
Print Assumptions c66_succeeds.
(** C66: process_close restores the table as it was before process_open and returns the exit code *)
Theorem c66_close fails lim k t t' fds child code : std_open t -> fails SInit = false -> process_open fails lim k t = Ret (Opened t' fds child) -> 0 <= code < 256 ->
  process_close (Some (256 * code)) t' fds = Ret (code, t).
Proof.
  intros S I E C. destruct (c66_open fails lim k t S I) as [E'|(a & b & c & u & ch & E' & D & Na & Nb & Nc & Lu & _ & Hu & _)]; rewrite E' in E; [discriminate|]. injection E as <- <- <-.
  unfold process_close. f_equal. f_equal.
  - rewrite Z.shiftr_land. change (Z.shiftr 65280 8) with (Z.ones 8). rewrite Z.land_ones by lia. rewrite Z.shiftr_div_pow2 by lia. change (2 ^ 8) with 256. rewrite Z.mul_comm, Z.div_mul by lia. apply Z.mod_small. exact C.
  - apply table_ext; [now rewrite closes_len|]. intros i. rewrite closes_open. cbn [existsb]. rewrite Hu. destruct (Z.eqb_spec i a) as [->|]; [symmetry; exact Na|]. destruct (Z.eqb_spec i b) as [->|]; [symmetry; exact Nb|]. destruct (Z.eqb_spec i c) as [->|]; [symmetry; exact Nc|]. reflexivity.
Qed.
Print Assumptions c66_close.
(** C66: if the initialisation of the file actions fails, an object that was never initialised is destroyed *)
Theorem c66_init_refuted fails lim k t : fails SInit = true -> process_open fails lim k t = UB.
Proof. intros E. unfold process_open. now rewrite E. Qed.
Print Assumptions c66_init_refuted.
(** C66: without the condition on 0-2: with 0 closed and nothing else failing, the call fails and leaves
    descriptor 0 open *)
Theorem c66_stdin_closed_refuted lim k o1 o2 : 8 <= lim ->
  process_open (fun _ => false) lim k ([None; Some o1; Some o2] ++ zrepeat None 5) = Ret (Failed ([Some (PipeR k); Some o1; Some o2] ++ zrepeat None 5)).
Proof.
  intros L. assert (B : forall i, i < 8 -> (i <? lim) = true) by lia. unfold process_open. cbn [existsb orb].
  assert (EP : pipes (fun _ => false) lim 3 0 k [None; Some o1; Some o2; None; None; None; None; None] [] = (true, [Some (PipeR (k + 0)); Some o1; Some o2; Some (PipeW (k + 0)); Some (PipeR (k + 1)); Some (PipeW (k + 1)); Some (PipeR (k + 2)); Some (PipeW (k + 2))], [0; 3; 4; 5; 6; 7])).
  { unfold pipes, pipe, newfd. do 6 (cbn [lowest]; match goal with |- context [?a <? lim] => let v := eval vm_compute in a in change a with v; rewrite (B v) by lia end; cbv beta iota delta [set]; match goal with |- context [ztake ?n ?l ++ ?x :: zdrop ?m ?l] => let v := eval cbv [ztake zdrop app Z.to_nat Pos.to_nat Pos.iter_op Nat.add firstn skipn Z.add Pos.add Pos.succ Init.Nat.add] in (ztake n l ++ x :: zdrop m l) in change (ztake n l ++ x :: zdrop m l) with v end). reflexivity. }
  change (zrepeat None 5) with [@None obj; None; None; None; None]. cbn [app]. rewrite EP. rewrite Z.add_0_r. reflexivity.
Qed.
Print Assumptions c66_stdin_closed_refuted.
(** descriptor 3 in use, limit 16 *)
Example c66_ex : let t := [Some (Other 0); Some (Other 0); Some (Other 0); Some (Other 1)] ++ zrepeat None 12 in
  process_open (fun _ => false) 16 9 t = Ret (Opened ([Some (Other 0); Some (Other 0); Some (Other 0); Some (Other 1); None; Some (PipeW 9); Some (PipeR 10); None; Some (PipeR 11)] ++ zrepeat None 7) [5; 6; 8] ([Some (PipeR 9); Some (PipeW 10); Some (PipeW 11); Some (Other 1)] ++ zrepeat None 12)) /\
  process_open (fun s => match s with SPipe 2 => true | _ => false end) 16 9 t = Ret (Failed t) /\ process_open (fun _ => false) 9 9 t = Ret (Failed t) /\
  process_close (Some 768) [None; None; None; Some Null; Some Null; Some (Other 2)] [3; 4; 5] = Ret (3, zrepeat None 6).
Proof. repeat split; vm_compute; reflexivity. Qed.

(** C67: the caller's process: exit status 0 in the parent, 1 if fork fails *)
Theorem c67_parent pid fails lim t : pid <> 0 -> daemonize pid fails lim t = Ret (Exited (if pid <? 0 then 1 else 0)).
Proof. intros N. unfold daemonize. destruct (Z.ltb_spec pid 0); [reflexivity|]. now replace (pid >? 0) with true by lia. Qed.
Print Assumptions c67_parent.
Lemma close_all_ok n : forall fd t, Z.max 0 (fd + 1) < Z.of_nat n -> exists t', close_all n fd t = Ret t' /\ zlen t' = zlen t /\ forall i, is_open t' i = if i <=? fd then None else is_open t i.
Proof.
  induction n as [|n IH]; intros fd t F; cbn [close_all]; [lia|]. destruct (Z.geb_spec fd 0) as [G|G].
  - destruct (IH (fd - 1) (close t fd) ltac:(lia)) as (t' & E & L & H). exists t'. split; [exact E|]. split; [now rewrite L, close_len|]. intros i. rewrite H, open_close. destruct (Z.leb_spec i (fd - 1)), (Z.leb_spec i fd), (Z.eqb_spec i fd); try reflexivity; lia.
  - exists t. split; [reflexivity|]. split; [reflexivity|]. intros i. destruct (Z.leb_spec i fd) as [A|A]; [|reflexivity]. unfold is_open. now replace (0 <=? i) with false by lia.
Qed.
(** C67: in the child 0, 1 and 2 are /dev/null and no other descriptor up to the table size is open;
    (descriptors above, if the limit had been lowered, stay) *)
Theorem c67_child lim t : 3 <= lim -> 3 <= zlen t ->
  exists t', daemonize 0 false lim t = Ret (Running t') /\ zlen t' = zlen t /\ forall i, is_open t' i = if (0 <=? i) && (i <? 3) then Some Null else if i <=? lim then None else is_open t i.
Proof.
  intros L3 T3. unfold daemonize. change (0 <? 0) with false. change (0 >? 0) with false. cbv iota. destruct (close_all_ok (S (S (Z.to_nat lim))) lim t) as (u & -> & Lu & Hu); [lia|]. cbn [bind].
  assert (New : forall v (o : obj) j, 0 <= j < 3 -> zlen v = zlen t -> is_open v j = None -> (forall i, 0 <= i < j -> is_open v i <> None) -> newfd lim v o = Some (j, set v j (Some o))).
  { intros v o j J Lv N B. destruct (newfd_some lim v o j N ltac:(lia) ltac:(lia)) as (fd & Lf & E). pose proof (newfd_ok _ _ _ _ _ E) as (R & _ & F & _ & _). destruct (Z.eq_dec fd j) as [->|]; [exact E|]. exfalso. apply (B fd); [lia|exact F]. }
  rewrite (New u Null 0) by (try (rewrite Hu; replace (0 <=? lim) with true by lia); lia || reflexivity). set (u0 := set u 0 (Some Null)). assert (H0 : forall i, is_open u0 i = if i =? 0 then Some Null else is_open u i) by (intros i; apply open_set; lia). assert (L0 : zlen u0 = zlen t) by (unfold u0; rewrite set_len; lia).
  assert (B0 : forall i, 0 <= i < 1 -> is_open u0 i <> None) by (intros i I; rewrite H0; now replace (i =? 0) with true by lia).
  unfold dup at 2. rewrite H0. cbn [Z.eqb]. rewrite (New u0 Null 1); [|lia|exact L0|rewrite H0, Hu; cbn [Z.eqb]; now replace (1 <=? lim) with true by lia|exact B0].
  set (u1 := set u0 1 (Some Null)). assert (H1 : forall i, is_open u1 i = if i =? 1 then Some Null else is_open u0 i) by (intros i; apply open_set; lia). assert (L1 : zlen u1 = zlen t) by (unfold u1; rewrite set_len; lia).
  assert (B1 : forall i, 0 <= i < 2 -> is_open u1 i <> None) by (intros i I; rewrite H1; destruct (Z.eqb_spec i 1); [discriminate|apply B0; lia]).
  unfold dup. rewrite H1, H0. cbn [Z.eqb]. rewrite (New u1 Null 2); [|lia|exact L1|rewrite H1, H0, Hu; cbn [Z.eqb Pos.eqb]; now replace (2 <=? lim) with true by lia|exact B1].
  eexists. split; [reflexivity|]. split; [rewrite set_len; lia|]. intros i. rewrite open_set by lia. rewrite H1, H0, Hu. destruct (Z.eqb_spec i 2) as [->|]; [reflexivity|]. destruct (Z.eqb_spec i 1) as [->|]; [reflexivity|]. destruct (Z.eqb_spec i 0) as [->|]; [reflexivity|]. now replace ((0 <=? i) && (i <? 3)) with false by lia.
Qed.
Print Assumptions c67_child.
(** C67: if /dev/null cannot be opened, everything is closed, and the standard descriptors stay so *)
Theorem c67_no_null lim t : 0 <= lim -> exists t', daemonize 0 true lim t = Ret (Running t') /\ zlen t' = zlen t /\ forall i, is_open t' i = if i <=? lim then None else is_open t i.
Proof.
  intros L. unfold daemonize. change (0 <? 0) with false. change (0 >? 0) with false. cbv iota. destruct (close_all_ok (S (S (Z.to_nat lim))) lim t) as (u & -> & Lu & Hu); [lia|]. cbn [bind]. exists u. split; [reflexivity|]. auto.
Qed.
Print Assumptions c67_no_null.
Example c67_ex : daemonize 0 false 5 [None; Some (Other 1); None; Some (PipeR 4); Some (Other 2); Some (Other 3); Some (Other 3)] = Ret (Running [Some Null; Some Null; Some Null; None; None; None; Some (Other 3)]) /\
  daemonize 17 false 5 [] = Ret (Exited 0) /\ daemonize (-1) false 5 [] = Ret (Exited 1).
Proof. repeat split; vm_compute; reflexivity. Qed.
