(** C118: the self test of process.c for every answer and every content of its array. *)
From Verif Require Import Base Cstr M_str P_str M_proc M_selftest P_strtest P_selftest M_hashtest.
From Coq Require Import String.

Definition NL : list Z := lit (String (Ascii.ascii_of_nat 10) EmptyString).
(** b: the array after read(2) *)
Theorem c118_process_exact : forall fails lim k t t1 fds ch status, process_open fails lim k t = Ret (Opened t1 fds ch) ->
  forall buf got, (forall g, got = Some g -> zlen g <= zlen buf) ->
  let b := match got with None => buf | Some g => (g ++ zdrop (zlen g) buf) end in
  (nz b -> process_main fails lim k t buf got (Some status) = UB) /\
  (forall s q, b = (s ++ 0 :: q) -> nz s ->
     (s = (lit "bfoo"%string ++ NL) -> process_main fails lim k t buf got (Some status) = Ret (Exit 0 (s ++ NL), fold_left close fds t1)) /\
     (s <> (lit "bfoo"%string ++ NL) -> process_main fails lim k t buf got (Some status) = Ret (Abort (s ++ NL), t1))).
Proof.
  intros fails lim k t t1 fds ch status O buf got Hg b.
  assert (W : (match got with None => Ret buf | Some g => zwrites buf 0 g end) = Ret b).
  { subst b. destruct got as [g|]; [|reflexivity]. specialize (Hg g eq_refl). destruct (zsplit (zlen g) buf) as (u & v & -> & Lu); [zpos; lia|]. rewrite <- Lu at 1. rewrite zdrop_app_exact. change (u ++ v) with ([] ++ u ++ v). rewrite zwrites_at by (reflexivity || lia). reflexivity. }
  unfold process_main. rewrite O. cbn [bind]. rewrite W. cbn [bind]. clearbody b. clear W Hg.
  change NL with [10]. split.
  - intros N. unfold puts, cstring, strlen. replace (_ && _) with true by (zpos; lia). change (zdrop 0 b) with b. rewrite no_nul by exact N. reflexivity.
  - intros s q -> N. rewrite puts_ok by exact N. cbn [bind].
    assert (E : streq_at (S (Datatypes.length (s ++ 0 :: q))) (s ++ 0 :: q) bfoo 0 0 = Ret (if list_eq_dec Z.eq_dec s (lit "bfoo"%string ++ [10]) then true else false)).
    { pose proof (streq_at_ok s answer (S (Datatypes.length (s ++ 0 :: q))) [] [] q [] N answer_nz ltac:(rewrite app_length; lia)) as H. exact H. }
    rewrite E. cbn [bind]. destruct (list_eq_dec Z.eq_dec s (lit "bfoo"%string ++ [10])); split; intros; congruence || reflexivity.
Qed.
Print Assumptions c118_process_exact.
Example c118_process_exact_ex : let t := [Some (Other 0); Some (Other 0); Some (Other 0); Some (Other 1)] ++ zrepeat None 12 in
  process_main (fun _ => false) 16 9 t [1; 2; 3; 4; 0] (Some (lit "bfo"%string)) (Some 0) = Ret (Abort (lit "bfo"%string ++ [4] ++ NL), fst (fst (
    match process_open (fun _ => false) 16 9 t with Ret (Opened t1 fds ch) => (t1, fds, ch) | _ => ([], [], []) end))).
Proof. vm_compute. reflexivity. Qed.
