(** C60: op_hasflag and op_get for every name, also with '-' or '=' in it or empty *)
From Coq Require Import String.
From Verif Require Import Base Bits Cstr M_stringptr M_str P_str M_opt S_opt P_opt S_optexact P_optexact M_hashtest.

Theorem c60_hasflag_exact : forall f r prog args, nz f -> Forall nz (prog :: args) -> zlen args < 2 ^ 31 ->
  op_hasflag (op_init (1 + zlen args) (map (fun s => s ++ [0]) (prog :: args))) (mkSp (f ++ 0 :: r) 0 (zlen f)) =
  Ret (if existsb (fun s => match strip (zlen f) s with Some t => same t f | None => false end) args then 1 else 0).
Proof.
  intros f r prog args Fn An L. unfold op_hasflag, op_init. cbn [argc]. zpos. rewrite u32_id by lia. rewrite <- zlen_cons with (x := prog). apply (hasflag_exact f r (prog :: args) An args [prog]); [reflexivity|]. rewrite zlen_cons. unfold zlen. lia.
Qed.
Print Assumptions c60_hasflag_exact.
Theorem c60_get_exact : forall f r prog args, nz f -> Forall nz (prog :: args) -> zlen args < 2 ^ 31 -> Forall (fun s => zlen s < 2 ^ 63) (prog :: args) ->
  op_get (op_init (1 + zlen args) (map (fun s => s ++ [0]) (prog :: args))) (mkSp (f ++ 0 :: r) 0 (zlen f)) = Ret (value_of f 1 args).
Proof.
  intros f r prog args Fn An L Al. unfold op_get, op_init. cbn [argc]. zpos. rewrite u32_id by lia. rewrite <- zlen_cons with (x := prog). apply (get_exact f r (prog :: args) Fn An Al args [prog]); [reflexivity|]. rewrite zlen_cons. unfold zlen. lia.
Qed.
Print Assumptions c60_get_exact.
(** a name of two or more characters that begins with '-' is not found behind a single '-' *)
Theorem c60_dash_name : forall g r prog, nz g -> nz prog -> g <> [] ->
  op_hasflag (op_init 2 (map (fun s => s ++ [0]) [prog; 45 :: 45 :: g])) (mkSp ((45 :: g) ++ 0 :: r) 0 (zlen (45 :: g))) = Ret 0.
Proof.
  intros g r prog Ng Np N. assert (N2 : nz (45 :: g)) by (constructor; [lia|exact Ng]). change 2 with (1 + zlen [45 :: 45 :: g]). rewrite c60_hasflag_exact; [|exact N2|constructor; [exact Np|constructor; [constructor; [lia|exact N2]|constructor]]|reflexivity].
  cbn [existsb strip]. change (45 =? 45) with true. cbn iota. destruct g as [|x g]; [congruence|]. rewrite !zlen_cons. zpos. replace (1 <? 1 + (1 + zlen g)) with true by lia. cbn [andb]. rewrite same_len; [reflexivity|]. rewrite !zlen_cons. lia.
Qed.
Print Assumptions c60_dash_name.
(** a name with '=' in it but not in front has no value *)
Theorem c60_equals_name : forall f r prog args, nz f -> Forall nz (prog :: args) -> zlen args < 2 ^ 31 -> Forall (fun s => zlen s < 2 ^ 63) (prog :: args) ->
  In 61 f -> znth 0 f 0 <> 61 -> op_get (op_init (1 + zlen args) (map (fun s => s ++ [0]) (prog :: args))) (mkSp (f ++ 0 :: r) 0 (zlen f)) = Ret None.
Proof.
  intros f r prog args Fn An L Al I H0. rewrite c60_get_exact by assumption. f_equal. generalize 1. clear - I H0. induction args as [|s rest IH]; intros i; [reflexivity|]. cbn [value_of].
  destruct (strip (zlen f) s) as [t|]; [|apply IH]. destruct (cut t) as [[a v]|] eqn:C.
  - assert (T : t = a ++ 61 :: v /\ ~ In 61 a).
    { clear - C. revert a v C. induction t as [|c t IH]; intros a v C; [discriminate|]. cbn [cut] in C. destruct (Z.eqb_spec c 61) as [->|Nc]; [injection C as <- <-; split; [reflexivity|intros []]|]. destruct (cut t) as [[a' v']|]; [|discriminate]. injection C as <- <-. destruct (IH a' v' eq_refl) as [-> N]. split; [reflexivity|]. intros [E|J]; [congruence|auto]. }
    destruct T as [-> Na]. destruct (same a f) eqn:S1; [apply same_spec in S1; congruence|]. destruct (same a []) eqn:S2; [|apply IH]. apply same_spec in S2. subst a. cbn [app]. destruct (same (61 :: v) f) eqn:S3; [apply same_spec in S3; subst f; elim H0; reflexivity|apply IH].
  - apply cut_none in C. destruct (same f []) eqn:S1; [apply same_spec in S1; subst f; destruct I|]. destruct (same t f) eqn:S2; [apply same_spec in S2; congruence|apply IH].
Qed.
Print Assumptions c60_equals_name.
(** the empty name: the pointer returned for the argument "-" is outside of it *)
Theorem c60_empty_name : forall r prog, nz prog -> zlen prog < 2 ^ 63 ->
  op_get (op_init 2 (map (fun s => s ++ [0]) [prog; [45]])) (mkSp (0 :: r) 0 0) = Ret (Some (1, 2)) /\ zread [45; 0] 2 = UB.
Proof.
  intros r prog Np Lp. split; [|reflexivity]. change 2 with (1 + zlen [[45]]) at 1. pose proof (c60_get_exact [] r prog [[45]]) as E. cbn [app] in E. change (zlen (@nil Z)) with 0 in E. rewrite E; [reflexivity|constructor|constructor; [exact Np|constructor; [constructor; [lia|constructor]|constructor]]|reflexivity|constructor; [exact Lp|constructor; [reflexivity|constructor]]].
Qed.
Print Assumptions c60_empty_name.
(** the arguments of examples/optparser_test.c 17-36 and any others behind them: what op_hasflag and
    op_get say of the names asserted there in 43-67 *)
Definition test_args : list (list Z) :=
  [lit "-cmd=test"; lit "-cmd2=test2=test2"; lit "-cmd"; lit "-o"; lit "-p"; lit "-q"; lit "-rst"]%string.
Theorem c60_test : forall prog more, Forall nz (prog :: more) -> zlen more < 2 ^ 30 -> Forall (fun s => zlen s < 2 ^ 63) (prog :: more) ->
  let st := op_init (1 + zlen (test_args ++ more)) (map (fun s => s ++ [0]) (prog :: test_args ++ more)) in
  let name f := mkSp (lit f ++ [0]) 0 (zlen (lit f)) in
  op_hasflag st (name "o"%string) = Ret 1 /\ op_hasflag st (name "p"%string) = Ret 1 /\ op_hasflag st (name "q"%string) = Ret 1 /\
  (In (lit "-r"%string) more \/ op_hasflag st (name "r"%string) = Ret 0) /\ (In (lit "-c"%string) more \/ op_hasflag st (name "c"%string) = Ret 0) /\
  op_get st (name "cmd"%string) = Ret (Some (1, 5)) /\ op_get st (name "cmd2"%string) = Ret (Some (2, 6)).
Proof.
  intros prog more N L Lm st name. inversion N as [|? ? Np Nm]. inversion Lm as [|? ? Lp Lmm]. subst.
  assert (K : forall l, forallb (fun c => negb (c =? 0)) l = true -> nz l). { intros l Hl. rewrite forallb_forall in Hl. apply Forall_forall. intros x Hx. specialize (Hl x Hx). lia. }
  assert (A : Forall nz (prog :: test_args ++ more)). { constructor; [exact Np|]. apply Forall_app. split; [|exact Nm]. repeat (apply Forall_cons; [apply K; reflexivity|]). constructor. }
  assert (LL : zlen (test_args ++ more) < 2 ^ 31) by (rewrite zlen_app; change (zlen test_args) with 7; lia).
  assert (B : Forall (fun s => zlen s < 2 ^ 63) (prog :: test_args ++ more)). { constructor; [exact Lp|]. apply Forall_app. split; [|exact Lmm]. repeat constructor. }
  assert (H : forall f, nz (lit f) -> op_hasflag st (name f) = Ret (if existsb (fun s => match strip (zlen (lit f)) s with Some t => same t (lit f) | None => false end) (test_args ++ more) then 1 else 0)) by (intros f Nf; now apply c60_hasflag_exact).
  assert (G : forall f, nz (lit f) -> op_get st (name f) = Ret (value_of (lit f) 1 (test_args ++ more))) by (intros f Nf; now apply c60_get_exact).
  assert (One : forall x, x <> 45 -> existsb (fun s => match strip (zlen [x]) s with Some t => same t [x] | None => false end) more = true -> In [45; x] more).
  { intros x Nx E. apply existsb_exists in E as (s & I & E). destruct s as [|c t]; [discriminate|]. cbn [strip] in E. destruct (Z.eqb_spec c 45) as [->|]; [|discriminate]. change (1 <? zlen [x]) with false in E. cbn [andb] in E. assert (T : t = [x]) by (destruct t; apply same_spec in E; exact E). now subst t. }
  rewrite !H, !G by (apply K; reflexivity). rewrite !existsb_app.
  split; [reflexivity|]. split; [reflexivity|]. split; [reflexivity|]. split; [|split; [|split; reflexivity]].
  - change (existsb _ test_args) with false. cbn [orb]. destruct (existsb _ more) eqn:E; [left; apply (One 114); [lia|exact E]|right; reflexivity].
  - change (existsb _ test_args) with false. cbn [orb]. destruct (existsb _ more) eqn:E; [left; apply (One 99); [lia|exact E]|right; reflexivity].
Qed.
Print Assumptions c60_test.
Example c60_exact_ex :
  let args := [lit "-=x"; lit "y"; lit "--a=b"; lit "-a"; lit "--"; lit "z"]%string in
  value_of (lit "=x"%string) 1 args = Some (2, 0) /\ value_of (lit "a"%string) 1 args = Some (5, 0) /\ value_of (lit "-a"%string) 1 args = None /\
  value_of (lit "-"%string) 1 args = Some (6, 0) /\ value_of [] 1 args = Some (1, 2).
Proof. vm_compute. repeat split. Qed.
