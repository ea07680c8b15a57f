(** More observations, added where a wrong program had survived. *)
From Verif Require Import Base Cstr M_filelib M_selftest S_filelib.

(** C118: two arguments of which the first is not exactly "X": nothing is done *)
Theorem c118_fuzz_other : forall a r b2 fuel buf wb file adj, nz a -> a <> [88] -> fuzz_main fuel buf wb [a ++ 0 :: r; b2] file adj = Ret (1, []).
Proof.
  intros a r b2 fuel buf wb file adj N E. unfold fuzz_main. destruct a as [|x a].
  - cbn [app]. change (zread (0 :: r) 0) with (Ret 0). reflexivity.
  - change (zread ((x :: a) ++ 0 :: r) 0) with (Ret x). cbn [bind]. destruct (Z.eqb_spec x 88) as [->|]; [|reflexivity]. destruct a as [|y a]; [congruence|].
    change (zread ((88 :: y :: a) ++ 0 :: r) 1) with (Ret y). cbn [bind]. apply nz_cons in N as [_ N]. apply nz_cons in N as [N _]. replace (y =? 0) with false by lia. reflexivity.
Qed.
Print Assumptions c118_fuzz_other.
Example c118_fuzz_other_ex : fuzz_main 70 [] [] [[88; 88; 0]; [47; 0]] None true = Ret (1, []).
Proof. vm_compute. reflexivity. Qed.
