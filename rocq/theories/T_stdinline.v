(** C73: read_stdin_line on any input *)
From Verif Require Import Base Bits Cstr M_stringptr M_fileparser M_spfile P_spfile.

(** what one fgets takes: no LF but at the end, and it stops at a LF, a full buffer or the end *)
Definition taken (room : Z) (d rest : list Z) : Prop :=
  d <> [] /\ zlen d <= room /\ ~ In 10 (removelast d) /\ (last d 0 = 10 \/ zlen d = room \/ rest = []).
Lemma take_taken : forall d n rest, taken (Z.of_nat n) d rest -> fgets_take n (d ++ rest) = d.
Proof.
  induction d as [|c d IH]; intros n rest (N & L & NL & E); [congruence|]. rewrite zlen_cons in L. zpos. destruct n as [|n]; [lia|]. cbn [app fgets_take]. destruct d as [|e d].
  - cbn [last] in E. destruct (Z.eqb_spec c 10) as [->|Nc]; [reflexivity|]. destruct E as [E|[E| ->]]; [congruence| |destruct n; reflexivity]. change (zlen [c]) with 1 in E. replace n with 0%nat by lia. destruct rest; reflexivity.
  - cbn [removelast] in NL. destruct (Z.eqb_spec c 10) as [->|Nc]; [elim NL; now left|]. f_equal. apply IH. split; [discriminate|]. split; [lia|]. split; [intros I; apply NL; now right|]. destruct E as [E|[E|E]]; [left; exact E|right; left; rewrite zlen_cons in E; lia|auto].
Qed.
(** s: the bytes taken before the first NUL; with chomp the last of them is dropped, whatever it is *)
Theorem c73_read_stdin_line_exact : forall b g n chomp d rest s, zlen b = n -> taken (n - 1) d rest -> nz s -> (s = d \/ exists y, d = s ++ 0 :: y) ->
  exists b', read_stdin_line (b ++ g) n chomp (d ++ rest) = Ret (Some (mkSp (b' ++ g) 0 (if chomp =? 0 then zlen s else Z.max 0 (zlen s - 1))), rest) /\
    zlen b' = n /\ ztake ((if chomp =? 0 then zlen s else Z.max 0 (zlen s - 1)) + 1) b' = (if chomp =? 0 then s else removelast s) ++ [0].
Proof.
  intros b g n chomp d rest s Lb T Ns Hs. pose proof T as (Nd & Ld & _). zpos. assert (TK : fgets_take (Z.to_nat (n - 1)) (d ++ rest) = d) by (apply take_taken; now rewrite Z2Nat.id by lia).
  destruct (zsplit (zlen d + 1) b) as (b1 & b2 & -> & L1); [lia|].
  assert (FG : fgets ((b1 ++ b2) ++ g) n (d ++ rest) = Ret (Some (d ++ 0 :: b2 ++ g), rest)).
  { unfold fgets. rewrite TK. rewrite <- app_assoc. pose proof (zwrites_at [] b1 (b2 ++ g) (d ++ [0]) 0 eq_refl ltac:(zl; lia)) as W. cbn [app] in W. rewrite W. cbn [bind]. rewrite zdrop_app_exact.
    destruct (d ++ rest) eqn:E; [exfalso; apply app_eq_nil in E as [-> _]; congruence|now rewrite <- app_assoc]. }
  assert (X : exists q, d ++ 0 :: b2 = s ++ 0 :: q). { destruct Hs as [->|(y & ->)]; [now exists b2|]. exists (y ++ 0 :: b2). now rewrite <- app_assoc. }
  destruct X as (q & X). assert (X' : d ++ 0 :: b2 ++ g = s ++ 0 :: q ++ g) by (rewrite app_comm_cons, app_assoc, X, <- app_assoc; reflexivity).
  assert (Lq : zlen s + 1 + zlen q = n). { assert (Y : zlen (d ++ 0 :: b2) = zlen (s ++ 0 :: q)) by now rewrite X. rewrite !zlen_app, !zlen_cons in Y. rewrite zlen_app in Lb. lia. }
  unfold read_stdin_line. rewrite FG. cbn [bind]. rewrite X', strlen_0 by exact Ns. cbn [bind]. destruct (chomp =? 0).
  - exists (s ++ 0 :: q). split; [now rewrite <- app_assoc|]. split; [rewrite zlen_app, zlen_cons; lia|]. change (s ++ 0 :: q) with (s ++ [0] ++ q). rewrite app_assoc. replace (zlen s + 1) with (zlen (s ++ [0])) by (rewrite zlen_app; reflexivity). apply ztake_app_exact.
  - unfold stringptr_shiftleft. cbn [sz sb so]. destruct s as [|c s0] using rev_ind.
    + cbn [bind app]. exists (0 :: q). split; [reflexivity|]. split; [rewrite zlen_cons; change (zlen (@nil Z)) with 0 in Lq; lia|]. reflexivity.
    + clear IHs0. rewrite removelast_last. rewrite zlen_app in *. change (zlen [c]) with 1 in *. zpos. replace (1 <=? zlen s0 + 1) with true by lia. replace (zlen s0 + 1 - 1) with (zlen s0) by lia. replace (Z.max 0 (zlen s0)) with (zlen s0) by lia.
      rewrite <- app_assoc. cbn [app]. rewrite zwrite_at by (rewrite Z.add_0_l; reflexivity). cbn [bind]. exists (s0 ++ 0 :: 0 :: q). split; [now rewrite <- app_assoc|]. split; [rewrite zlen_app, !zlen_cons; lia|]. change (s0 ++ 0 :: 0 :: q) with (s0 ++ [0] ++ 0 :: q). rewrite app_assoc. replace (zlen s0 + 1) with (zlen (s0 ++ [0])) by (rewrite zlen_app; reflexivity). apply ztake_app_exact.
Qed.
Print Assumptions c73_read_stdin_line_exact.
(** there is always something taken from an input that is not empty *)
Lemma taken_ex : forall n c input, exists d rest, c :: input = d ++ rest /\ taken (Z.of_nat (S n)) d rest.
Proof.
  induction n as [|n IH]; intros c input.
  - exists [c], input. split; [reflexivity|]. split; [discriminate|]. split; [reflexivity|]. split; [intros []|]. right. left. reflexivity.
  - destruct (Z.eq_dec c 10) as [->|Nc]; [exists [10], input; split; [reflexivity|]; split; [discriminate|]; split; [change (zlen [10]) with 1; lia|]; split; [intros []|]; left; reflexivity|].
    destruct input as [|e input]; [exists [c], []; split; [reflexivity|]; split; [discriminate|]; split; [change (zlen [c]) with 1; lia|]; split; [intros []|]; right; right; reflexivity|].
    destruct (IH e input) as (d & rest & E & N & L & NL & H). exists (c :: d), rest. split; [cbn [app]; now rewrite E|]. split; [discriminate|]. rewrite zlen_cons. split; [lia|]. destruct d as [|x d]; [congruence|]. split; [intros [I|I]; [congruence|apply NL; exact I]|]. destruct H as [H|[H|H]]; [left; exact H|right; left; lia|auto].
Qed.
Example c73_stdin_ex :
  (exists d rest, [97; 98; 99; 100] = d ++ rest /\ taken 3 d rest) /\
  read_stdin_line [7; 7; 7; 7; 7] 5 1 [97; 98; 0; 10; 99] = Ret (Some (mkSp [97; 0; 0; 10; 0] 0 1), [99]) /\ read_stdin_line [7; 7; 7; 7; 7] 5 1 [0; 10; 99] = Ret (Some (mkSp [0; 10; 0; 7; 7] 0 0), [99]).
Proof. split; [exact (taken_ex 2 97 _)|]. vm_compute. auto. Qed.
