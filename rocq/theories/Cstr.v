(** NUL-terminated strings inside buffers, and the libc functions on them that
    several modules use.  libc itself is not verified: these definitions state
    what the C standard says (7.24), with UB when the scan leaves the buffer. *)
From Verif Require Import Base Bits.

Definition nz (s : list Z) : Prop := Forall (fun c => c <> 0) s.
Lemma nz_cons c s : nz (c :: s) <-> c <> 0 /\ nz s.
Proof. apply Forall_cons_iff. Qed.
Lemma nz_app a b : nz (a ++ b) <-> nz a /\ nz b.
Proof. apply Forall_app. Qed.
Lemma nz_nil : nz []. Proof. constructor. Qed.

(** libc strlen on the bytes starting at the pointer *)
Fixpoint strlen_l (l : list Z) : out Z :=
  match l with
  | [] => UB
  | c :: l => if c =? 0 then Ret 0 else let* n := strlen_l l in Ret (1 + n)
  end.
(** strlen(buf + p) *)
Definition strlen (buf : list Z) (p : Z) : out Z :=
  if (0 <=? p) && (p <=? zlen buf) then strlen_l (zdrop p buf) else UB.

Lemma strlen_l_ok s r : nz s -> strlen_l (s ++ 0 :: r) = Ret (zlen s).
Proof.
  induction s as [|c s IH]; intros H; [reflexivity|]. apply nz_cons in H as [Hc H].
  cbn [app strlen_l]. replace (c =? 0) with false by lia. rewrite IH by assumption. cbn [bind]. now zl.
Qed.
Lemma strlen_ok p s r i : nz s -> i = zlen p -> strlen (p ++ s ++ 0 :: r) i = Ret (zlen s).
Proof.
  intros H ->. unfold strlen. zpos. replace (_ && _) with true by (zl; zpos; lia).
  rewrite zdrop_app_exact. now apply strlen_l_ok.
Qed.
Lemma strlen_0 s r : nz s -> strlen (s ++ 0 :: r) 0 = Ret (zlen s).
Proof. intros. apply (strlen_ok [] s r 0); auto. Qed.

(** a pointer to the char after position |p| of buffer p ++ a :: ... *)
Lemma zread_seq1 (p : list Z) a b q i : i = zlen p + 1 -> zread (p ++ a :: b :: q) i = Ret b.
Proof.
  intros ->. change (p ++ a :: b :: q) with (p ++ [a] ++ b :: q). rewrite app_assoc.
  apply zread_at. zlia.
Qed.
Lemma zwrite_seq1 (p : list Z) a b q i v : i = zlen p + 1 ->
  zwrite (p ++ a :: b :: q) i v = Ret (p ++ a :: v :: q).
Proof.
  intros ->. change (p ++ a :: b :: q) with (p ++ [a] ++ b :: q). rewrite app_assoc.
  rewrite zwrite_at by zlia. now rewrite <- app_assoc.
Qed.

Ltac tup := repeat match goal with |- Ret _ = Ret _ => f_equal | |- (_, _) = (_, _) => f_equal
                              | |- Some _ = Some _ => f_equal end; try reflexivity; try lia; try solve [zl; zpos; lia].
Ltac lz := repeat (apply (f_equal2 cons); [lia|]); try reflexivity.

Lemma zdrop_cons_inv (n : Z) (l : list Z) : 0 <= n < zlen l -> exists x q, zdrop n l = x :: q /\ q = zdrop (n + 1) l.
Proof.
  intros H. destruct (zdrop n l) as [|x q] eqn:E.
  - apply (f_equal zlen) in E. rewrite zlen_zdrop in E by lia. zl. lia.
  - exists x, q. split; [reflexivity|]. rewrite Z.add_comm, <- zdrop_zdrop by lia. rewrite E. reflexivity.
Qed.
Lemma zlen_cons_inv (l : list Z) : 0 < zlen l -> exists x q, l = x :: q.
Proof. destruct l; [zl; lia|eauto]. Qed.
