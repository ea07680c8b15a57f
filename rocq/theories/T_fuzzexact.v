(** C118: the fuzz target of normalizepath_cstr.c on every file. *)
From Verif Require Import Base Bits Cstr M_filelib S_filelib P_filelib M_selftest P_selftest.

(** what fgets takes from a file with d ++ rest: no LF but at the end, and it stops at a LF, a full buffer or the end *)
Definition fgets_takes (room : Z) (d rest : list Z) : Prop :=
  zlen d <= room /\ ~ In 10 (removelast d) /\ (d = [] -> rest = []) /\ (last d 0 = 10 \/ zlen d = room \/ rest = []).
Lemma line_takes : forall d n rest, fgets_takes (Z.of_nat n) d rest -> line n (d ++ rest) = d.
Proof.
  induction d as [|c d IH]; intros n rest (L & NL & E0 & E).
  - rewrite E0 by reflexivity. destruct n; reflexivity.
  - rewrite zlen_cons in L. zpos. destruct n as [|n]; [lia|]. cbn [app line]. destruct d as [|e d].
    + cbn [last] in E. destruct (Z.eqb_spec c 10) as [->|Nc]; [reflexivity|]. destruct E as [E|[E| ->]]; [congruence| |destruct n; reflexivity]. change (zlen [c]) with 1 in E. replace n with 0%nat by lia. destruct rest; reflexivity.
    + cbn [removelast] in NL. destruct (Z.eqb_spec c 10) as [->|Nc]; [elim NL; now left|]. f_equal. apply IH. split; [lia|]. split; [intros I; apply NL; now right|]. split; [discriminate|]. destruct E as [E|[E|E]]; [left; exact E|right; left; rewrite zlen_cons in E; lia|auto].
Qed.
Lemma takes_some room c : 0 < room -> exists d rest, c = d ++ rest /\ fgets_takes room d rest.
Proof.
  revert room. induction c as [|x c IH]; intros room R; [exists [], []; repeat split; auto; cbn; lia|]. destruct (Z.eq_dec x 10) as [->|N].
  - exists [10], c. split; [reflexivity|]. split; [change (zlen [10]) with 1; lia|]. split; [cbn; tauto|]. split; [discriminate|]. now left.
  - destruct (Z.eq_dec room 1) as [->|R1]. { exists [x], c. split; [reflexivity|]. split; [reflexivity|]. split; [cbn; tauto|]. split; [discriminate|]. right; left. reflexivity. }
    destruct (IH (room - 1) ltac:(lia)) as (d & rest & -> & L & NL & E0 & E). exists (x :: d), rest. split; [reflexivity|]. split; [rewrite zlen_cons; lia|]. split.
    + destruct d as [|e d]; [cbn; tauto|]. cbn [removelast]. intros [I|I]; [congruence|exact (NL I)].
    + split; [discriminate|]. destruct d as [|e d]; [right; right; now apply E0|]. rewrite zlen_cons. destruct E as [E|[E|E]]; [left; exact E|right; left; lia|auto].
Qed.

(** of what fgets takes the bytes up to the first NUL count, and the last of them is dropped whatever it is; nothing is printed and 1 returned if there are none *)
Theorem c118_fuzz_exact : forall d rest s r fuel buf wb b1 adj, fgets_takes 63 d rest -> d ++ [0] = s ++ 0 :: r -> nz s -> bytes s -> zlen buf = 64 -> zlen wb = 64 -> (64 < fuel)%nat ->
  fuzz_main fuel buf wb [b1] (Some (d ++ rest)) adj =
    Ret (if adj then match s with [] => (1, []) | _ => (0, match normal (removelast s) with None => [] | Some p => removelast s ++ [32; 45; 62; 32] ++ p ++ [10] end) end else (1, [])).
Proof.
  intros d rest s r fuel buf wb b1 adj T E N B L1 L2 F. assert (El : line 63 (d ++ rest) = d) by (apply line_takes; exact T). destruct adj.
  - rewrite (fuzz_ok (d ++ rest) s r) by (rewrite ?El; auto). destruct s; reflexivity.
  - unfold fuzz_main, fgets. change (Z.to_nat (64 - 1)) with 63%nat. rewrite El. destruct T as (LL & _). destruct d as [|y l]; [reflexivity|].
    set (w := (y :: l) ++ [0]) in *. assert (Lw : zlen w <= 64). { unfold w. rewrite zlen_app. change (zlen [0]) with 1. lia. }
    destruct (zsplit (zlen w) buf) as (u & v & -> & Lu); [zpos; lia|]. change (u ++ v) with ([] ++ u ++ v). rewrite zwrites_at by (reflexivity || lia). cbn [bind app].
    rewrite E, <- app_assoc. cbn [app]. rewrite strlen_0 by exact N. cbn [bind]. destruct (zlen s =? 0) eqn:Z0; [reflexivity|].
    destruct s as [|z0 s0]; [cbn in Z0; discriminate|]. destruct (@exists_last _ (z0 :: s0)) as (t & x & Et); [discriminate|]. rewrite Et. rewrite <- app_assoc. cbn [app]. rewrite zwrite_at by (zl; lia). reflexivity.
Qed.
Print Assumptions c118_fuzz_exact.
(** and every file is of that form *)
Theorem c118_fuzz_total : forall c fuel buf wb b1, bytes c -> zlen buf = 64 -> zlen wb = 64 -> (64 < fuel)%nat ->
  exists d rest s r, c = d ++ rest /\ fgets_takes 63 d rest /\ d ++ [0] = s ++ 0 :: r /\ nz s /\
    fuzz_main fuel buf wb [b1] (Some c) true = Ret match s with [] => (1, []) | _ => (0, match normal (removelast s) with None => [] | Some p => removelast s ++ [32; 45; 62; 32] ++ p ++ [10] end) end.
Proof.
  intros c fuel buf wb b1 B L1 L2 F. destruct (takes_some 63 c ltac:(lia)) as (d & rest & -> & T). destruct (to_nul d) as (s & r & E & N). exists d, rest, s, r. do 4 (split; [auto|]).
  assert (Bs : bytes s). { assert (X : bytes (d ++ [0])). { apply bytes_app in B as [B _]. apply bytes_app. split; [exact B|]. apply bytes_cons. split; [unfold byte; lia|constructor]. } rewrite E in X. apply bytes_app in X as [X _]. exact X. }
  exact (c118_fuzz_exact d rest s r fuel buf wb b1 true T E N Bs L1 L2 F).
Qed.
Print Assumptions c118_fuzz_total.
(* "/a/\0b\n": the slash before the NUL is dropped *)
Example c118_fuzz_exact_ex : fgets_takes 63 [47; 97; 47; 0; 98; 10] [99] /\ fuzz_main 200 (zrepeat 7 64) (zrepeat 7 64) [[]] (Some [47; 97; 47; 0; 98; 10; 99]) true = Ret (0, [47; 97; 32; 45; 62; 32; 47; 97; 10]).
Proof. split; [|vm_compute; reflexivity]. unfold fgets_takes. cbn. repeat split; try lia. discriminate. Qed.
