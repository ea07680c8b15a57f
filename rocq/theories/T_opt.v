(** C60: command line options. *)
From Verif Require Import Base Cstr M_stringptr M_opt S_opt P_opt.

(** C60: op_hasflag finds -f and --f.  f: not empty, no leading '-'; r: whatever follows its NUL;
    the argument buffers hold nothing but the arguments and their NULs *)
Theorem c60_hasflag f r args : f <> [] -> znth 0 f 0 <> 45 -> nz f -> Forall nz args -> zlen args < 2 ^ 31 ->
  exists b, op_hasflag (op_init (zlen args) (map (fun s => s ++ [0]) args)) (mkSp (f ++ 0 :: r) 0 (zlen f)) = Ret b /\ (b = 0 \/ b = 1) /\
            (b = 1 <-> exists j, 1 <= j < zlen args /\ option_word f (znth [] args j)).
Proof.
  intros F0 F1 Fn An L. pose proof (zlen_nonneg args). unfold op_hasflag, op_init. cbn [argc]. rewrite u32_id by lia.
  destruct (hasflag_loop_ok f r F0 F1 Fn args An (S (Z.to_nat (zlen args))) 1 ltac:(lia) ltac:(lia)) as (b & E & B). exists b. split; [exact E|].
  destruct B as [[-> B]|[-> B]]; (split; [auto|]).
  - split; [intros _; exact B|reflexivity].
  - split; [discriminate|]. intros (j & Hj & W). now elim (B j Hj).
Qed.
(** C60: op_get returns a pointer to the value of the first argument that gives the option one.  f
    has no '=' *)
Theorem c60_get f r args : f <> [] -> znth 0 f 0 <> 45 -> nz f -> Forall nz args -> ~ In 61 f -> Forall (fun s => zlen s < 2 ^ 63) args -> zlen args < 2 ^ 31 ->
  exists b, op_get (op_init (zlen args) (map (fun s => s ++ [0]) args)) (mkSp (f ++ 0 :: r) 0 (zlen f)) = Ret b /\
  match b with
  | Some (k, off) => exists j v, gives args f j v /\ (forall j' v', j' < j -> ~ gives args f j' v') /\
                                 exists p, zread (map (fun s => s ++ [0]) args) k = Ret (p ++ v ++ [0]) /\ zlen p = off
  | None => forall j v, ~ gives args f j v
  end.
Proof.
  intros F0 F1 Fn An Fe Al L. pose proof (zlen_nonneg args). unfold op_get, op_init. cbn [argc]. rewrite u32_id by lia.
  destruct (get_loop_ok f r F0 F1 Fn args An Fe Al (S (Z.to_nat (zlen args))) 1 ltac:(lia) ltac:(lia)) as (b & E & B). exists b. split; [exact E|]. destruct b as [[k off]|].
  - destruct B as (j & v & _ & G & M & T). exists j, v. split; [exact G|]. split; [|exact T]. intros j' v' Hj G'. apply (M j' v'); [|exact G']. destruct G' as [? _]. lia.
  - intros j v G. apply (B j v); [|exact G]. destruct G as [? _]. lia.
Qed.
(** C60: optparser.h 9 promises that -ltp sets the flags l, t and p; none of them is seen, for any
    two or more letters *)
Theorem c60_combined_refuted f r a l t : 0 < f -> f <> 45 -> nz l -> l = a :: t -> t <> [] ->
  op_hasflag (op_init 2 [[120; 0]; 45 :: l ++ [0]]) (mkSp (f :: 0 :: r) 0 1) = Ret 0.
Proof.
  intros F0 F1 N E T. destruct (c60_hasflag [f] r [[120]; 45 :: l]) as (b & Eb & R & B).
  - discriminate.
  - exact F1.
  - repeat constructor. lia.
  - constructor; [repeat constructor; lia|]. constructor; [|constructor]. constructor; [lia|exact N].
  - reflexivity.
  - change (map _ _) with [[120; 0]; 45 :: l ++ [0]] in Eb. change (zlen [[120]; 45 :: l]) with 2 in *. change (zlen [f]) with 1 in Eb. cbn [app] in Eb. rewrite Eb. destruct R as [-> | ->]; [reflexivity|].
    destruct B as [B _]. destruct (B eq_refl) as (j & Hj & W). assert (j = 1) by lia. subst j. change (znth [] [[120]; 45 :: l] 1) with (45 :: l) in W. destruct W as [W|[W _]]; [|discriminate W].
    injection W as W. subst l. injection W as _ W. easy.
Qed.
Print Assumptions c60_hasflag.
Print Assumptions c60_get.
Print Assumptions c60_combined_refuted.
(** prog -v --out x --out=y -n=5 *)
Example c60_ex : let p := op_init 6 [[112; 0]; [45; 118; 0]; [45; 45; 111; 0]; [120; 0]; [45; 45; 111; 117; 61; 121; 0]; [45; 110; 61; 53; 0]] in
  op_hasflag p (mkSp [118; 0] 0 1) = Ret 1 /\ op_hasflag p (mkSp [120; 0] 0 1) = Ret 0 /\ op_hasflag p (mkSp [111; 0] 0 1) = Ret 0 /\
  op_get p (mkSp [118; 0] 0 1) = Ret (Some (2, 0)) /\ op_get p (mkSp [111; 117; 0] 0 2) = Ret (Some (4, 5)) /\ op_get p (mkSp [110; 0] 0 1) = Ret (Some (5, 3)) /\
  op_get p (mkSp [109; 0] 0 1) = Ret None.
Proof. repeat split. Qed.
