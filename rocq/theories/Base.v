(** Common ground of all models: outcome monad, Z-indexed lists used as memory
    buffers, fixed-width arithmetic.  Not tied to one file of /repo. *)
From Coq Require Export List ZArith Lia Bool.
From Coq Require Export ZifyBool ZifyNat ZifyN.
Export ListNotations.
Open Scope Z_scope.

(** Outcome of a modelled C function: a value, undefined behaviour, or a loop
    whose fuel was exhausted. *)
Inductive out (A : Type) : Type :=
| Ret (a : A)
| UB
| Fuel.
Arguments Ret {A} a.
Arguments UB {A}.
Arguments Fuel {A}.

Definition bind {A B} (m : out A) (f : A -> out B) : out B :=
  match m with Ret a => f a | UB => UB | Fuel => Fuel end.

Notation "'let*' x ':=' e 'in' f" := (bind e (fun x => f))
  (at level 61, x pattern, e at next level, right associativity).

(** Lists indexed by Z. *)
Definition zlen {A} (l : list A) : Z := Z.of_nat (length l).
Definition ztake {A} (n : Z) (l : list A) : list A := firstn (Z.to_nat n) l.
Definition zdrop {A} (n : Z) (l : list A) : list A := skipn (Z.to_nat n) l.
Definition znth {A} (d : A) (l : list A) (i : Z) : A := nth (Z.to_nat i) l d.

(** Bounds-checked buffer accesses; outside the buffer is undefined. *)
Definition zread {A} (b : list A) (i : Z) : out A :=
  if 0 <=? i then
    match nth_error b (Z.to_nat i) with Some x => Ret x | None => UB end
  else UB.
Definition zwrite {A} (b : list A) (i : Z) (v : A) : out (list A) :=
  if (0 <=? i) && (i <? zlen b)
  then Ret (ztake i b ++ v :: zdrop (i + 1) b) else UB.
(** n consecutive elements from i (source of a memcpy). *)
Definition zreads {A} (b : list A) (i n : Z) : out (list A) :=
  if (0 <=? i) && (0 <=? n) && (i + n <=? zlen b)
  then Ret (ztake n (zdrop i b)) else UB.
(** write consecutive elements at i (destination of a memcpy). *)
Definition zwrites {A} (b : list A) (i : Z) (l : list A) : out (list A) :=
  if (0 <=? i) && (i + zlen l <=? zlen b)
  then Ret (ztake i b ++ l ++ zdrop (i + zlen l) b) else UB.
(** memmove inside one buffer (also used for memcpy with disjoint ranges). *)
Definition zmove {A} (b : list A) (dst src n : Z) : out (list A) :=
  let* s := zreads b src n in zwrites b dst s.

Definition zrepeat {A} (x : A) (n : Z) : list A := repeat x (Z.to_nat n).

(** Fixed-width arithmetic. *)
Definition u8 (x : Z) : Z := x mod 256.
Definition u16 (x : Z) : Z := x mod 65536.
Definition u32 (x : Z) : Z := x mod 4294967296.
Definition u64 (x : Z) : Z := x mod 18446744073709551616.
(** conversion to a signed type of the given width (implementation-defined in C,
    two's complement in gcc/clang). *)
Definition s8 (x : Z) : Z := (x + 128) mod 256 - 128.
Definition s32 (x : Z) : Z := (x + 2147483648) mod 4294967296 - 2147483648.
Definition s64 (x : Z) : Z :=
  (x + 9223372036854775808) mod 18446744073709551616 - 9223372036854775808.
Definition SIZE_MAX : Z := 18446744073709551615.

(** signed arithmetic whose overflow is undefined *)
Definition int_ok (x : Z) : bool := (-2147483648 <=? x) && (x <=? 2147483647).
Definition i64_ok (x : Z) : bool :=
  (-9223372036854775808 <=? x) && (x <=? 9223372036854775807).
Definition int_r (x : Z) : out Z := if int_ok x then Ret x else UB.
Definition i64_r (x : Z) : out Z := if i64_ok x then Ret x else UB.

Definition byte (b : Z) : Prop := 0 <= b < 256.
Definition bytes (l : list Z) : Prop := Forall byte l.

(* ------------------------------------------------------------------ *)
(** Lemmas *)

Lemma bind_ret {A B} (a : A) (f : A -> out B) : bind (Ret a) f = f a.
Proof. reflexivity. Qed.

Lemma bind_assoc {A B C} (m : out A) (f : A -> out B) (g : B -> out C) :
  bind (bind m f) g = bind m (fun x => bind (f x) g).
Proof. destruct m; reflexivity. Qed.

Lemma bind_eq_ret {A B} (m : out A) (f : A -> out B) b :
  bind m f = Ret b -> exists a, m = Ret a /\ f a = Ret b.
Proof. destruct m; cbn; try discriminate; eauto. Qed.

Section ZL.
Context {A : Type}.
Implicit Types l b p q : list A.

Lemma zlen_nil : zlen (@nil A) = 0. Proof. reflexivity. Qed.
Lemma zlen_cons x l : zlen (x :: l) = 1 + zlen l.
Proof. unfold zlen; cbn [length]; lia. Qed.
Lemma zlen_app l l' : zlen (l ++ l') = zlen l + zlen l'.
Proof. unfold zlen; rewrite app_length; lia. Qed.
Lemma zlen_nonneg l : 0 <= zlen l. Proof. unfold zlen; lia. Qed.
Lemma zlen_rev l : zlen (rev l) = zlen l.
Proof. unfold zlen; now rewrite rev_length. Qed.
Lemma zlen_map {B} (f : A -> B) l : zlen (map f l) = zlen l.
Proof. unfold zlen; now rewrite map_length. Qed.
Lemma zlen_zrepeat (x : A) n : 0 <= n -> zlen (zrepeat x n) = n.
Proof. intros; unfold zlen, zrepeat; rewrite repeat_length; lia. Qed.
Lemma zlen_0 l : zlen l = 0 -> l = [].
Proof. destruct l; [reflexivity|rewrite zlen_cons; pose proof (zlen_nonneg l); lia]. Qed.
Lemma zlen_ztake n l : 0 <= n <= zlen l -> zlen (ztake n l) = n.
Proof. unfold zlen, ztake; intros; rewrite firstn_length; lia. Qed.
Lemma zlen_ztake_min n l : 0 <= n -> zlen (ztake n l) = Z.min n (zlen l).
Proof. unfold zlen, ztake; intros; rewrite firstn_length; lia. Qed.
Lemma zlen_zdrop n l : 0 <= n <= zlen l -> zlen (zdrop n l) = zlen l - n.
Proof. unfold zlen, zdrop; intros; rewrite skipn_length; lia. Qed.
Lemma zlen_zdrop_max n l : 0 <= n -> zlen (zdrop n l) = Z.max 0 (zlen l - n).
Proof. unfold zlen, zdrop; intros; rewrite skipn_length; lia. Qed.

Lemma ztake_zdrop n l : ztake n l ++ zdrop n l = l.
Proof. apply firstn_skipn. Qed.
Lemma ztake_0 l : ztake 0 l = []. Proof. reflexivity. Qed.
Lemma zdrop_0 l : zdrop 0 l = l. Proof. reflexivity. Qed.
Lemma ztake_neg n l : n <= 0 -> ztake n l = [].
Proof. intros; unfold ztake; replace (Z.to_nat n) with O by lia; reflexivity. Qed.
Lemma zdrop_neg n l : n <= 0 -> zdrop n l = l.
Proof. intros; unfold zdrop; replace (Z.to_nat n) with O by lia; reflexivity. Qed.
Lemma ztake_all n l : zlen l <= n -> ztake n l = l.
Proof. unfold zlen, ztake; intros; apply firstn_all2; lia. Qed.
Lemma zdrop_all n l : zlen l <= n -> zdrop n l = [].
Proof. unfold zlen, zdrop; intros; apply skipn_all2; lia. Qed.
Lemma ztake_app1 n l l' : n <= zlen l -> ztake n (l ++ l') = ztake n l.
Proof. unfold zlen, ztake; intros; rewrite firstn_app.
  replace (Z.to_nat n - length l)%nat with O by lia. cbn; now rewrite app_nil_r. Qed.
Lemma ztake_app2 n l l' : zlen l <= n -> ztake n (l ++ l') = l ++ ztake (n - zlen l) l'.
Proof. unfold zlen, ztake; intros; rewrite firstn_app.
  rewrite firstn_all2 by lia. do 2 f_equal; lia. Qed.
Lemma zdrop_app1 n l l' : n <= zlen l -> zdrop n (l ++ l') = zdrop n l ++ l'.
Proof. unfold zlen, zdrop; intros; rewrite skipn_app.
  replace (Z.to_nat n - length l)%nat with O by lia. reflexivity. Qed.
Lemma zdrop_app2 n l l' : zlen l <= n -> zdrop n (l ++ l') = zdrop (n - zlen l) l'.
Proof. unfold zlen, zdrop; intros; rewrite skipn_app.
  rewrite skipn_all2 by lia. cbn; f_equal; lia. Qed.
Lemma ztake_app_exact l l' : ztake (zlen l) (l ++ l') = l.
Proof. rewrite ztake_app1, ztake_all; lia || reflexivity. Qed.
Lemma zdrop_app_exact l l' : zdrop (zlen l) (l ++ l') = l'.
Proof. rewrite zdrop_app2 by lia. replace (zlen l - zlen l) with 0 by lia. reflexivity. Qed.
Lemma zdrop_zdrop m n l : 0 <= m -> 0 <= n -> zdrop m (zdrop n l) = zdrop (m + n) l.
Proof.
  intros; unfold zdrop. rewrite Z2Nat.inj_add by lia.
  generalize (Z.to_nat m), (Z.to_nat n). clear. intros m n. revert l.
  induction n as [|n IH]; intros l.
  - now rewrite Nat.add_0_r.
  - destruct l; [now rewrite !skipn_nil|].
    rewrite Nat.add_succ_r; cbn [skipn]; auto.
Qed.
Lemma ztake_ztake m n l : m <= n -> ztake m (ztake n l) = ztake m l.
Proof. intros; unfold ztake; rewrite firstn_firstn; f_equal; lia. Qed.
Lemma ztake_zdrop_comm m n l : 0 <= m -> 0 <= n ->
  ztake m (zdrop n l) = zdrop n (ztake (m + n) l).
Proof.
  intros; unfold ztake, zdrop. rewrite Z2Nat.inj_add, Nat.add_comm by lia.
  apply firstn_skipn_comm.
Qed.

Lemma znth_app1 d l l' i : 0 <= i < zlen l -> znth d (l ++ l') i = znth d l i.
Proof. unfold znth, zlen; intros; apply app_nth1; lia. Qed.
Lemma znth_app2 d l l' i : zlen l <= i -> znth d (l ++ l') i = znth d l' (i - zlen l).
Proof. unfold znth, zlen; intros; rewrite app_nth2 by lia; f_equal; lia. Qed.
Lemma znth_app_exact d l x l' : znth d (l ++ x :: l') (zlen l) = x.
Proof. rewrite znth_app2 by lia. now rewrite Z.sub_diag. Qed.
Lemma znth_cons0 d x l : znth d (x :: l) 0 = x. Proof. reflexivity. Qed.
Lemma znth_consS d x l i : 0 < i -> znth d (x :: l) i = znth d l (i - 1).
Proof. intros; unfold znth. replace (Z.to_nat i) with (S (Z.to_nat (i - 1))) by lia. reflexivity. Qed.
Lemma znth_ztake d n l i : 0 <= i < n -> znth d (ztake n l) i = znth d l i.
Proof.
  unfold znth, ztake; intros. set (k := Z.to_nat i).
  assert (k < Z.to_nat n)%nat by lia. generalize dependent (Z.to_nat n). intros m Hm.
  clearbody k. clear H. revert l k Hm.
  induction m; intros; [lia|]. destruct l; [reflexivity|]. destruct k; cbn; [reflexivity|].
  apply IHm; lia.
Qed.
Lemma nth_skipn' d l n i : nth i (skipn n l) d = nth (n + i) l d.
Proof. revert l; induction n; intros; [reflexivity|]. destruct l; cbn; [now destruct i|apply IHn]. Qed.
Lemma znth_zdrop d n l i : 0 <= n -> 0 <= i -> znth d (zdrop n l) i = znth d l (n + i).
Proof. intros; unfold znth, zdrop. rewrite nth_skipn'. f_equal; lia. Qed.
Lemma znth_overflow d l i : zlen l <= i -> znth d l i = d.
Proof. unfold znth, zlen; intros; apply nth_overflow; lia. Qed.
Lemma znth_ext d l l' :
  zlen l = zlen l' -> (forall i, 0 <= i < zlen l -> znth d l i = znth d l' i) -> l = l'.
Proof.
  unfold zlen, znth; intros HL H. apply (nth_ext l l' d d); [lia|].
  intros n Hn. specialize (H (Z.of_nat n)). rewrite !Nat2Z.id in H. apply H; lia.
Qed.
Lemma znth_In d l i : 0 <= i < zlen l -> In (znth d l i) l.
Proof. unfold znth, zlen; intros; apply nth_In; lia. Qed.
Lemma In_znth d l x : In x l -> exists i, 0 <= i < zlen l /\ znth d l i = x.
Proof.
  intros H. destruct (In_nth l x d H) as [n [Hn Hx]]. exists (Z.of_nat n).
  unfold zlen, znth. rewrite Nat2Z.id. split; [lia|assumption].
Qed.
Lemma Forall_znth (P : A -> Prop) d l i : Forall P l -> 0 <= i < zlen l -> P (znth d l i).
Proof. intros HF Hi. rewrite Forall_forall in HF. apply HF, znth_In; lia. Qed.
Lemma znth_zrepeat (d x : A) n i : 0 <= i < n -> znth d (zrepeat x n) i = x.
Proof. unfold znth, zrepeat; intros. rewrite (nth_indep _ d x), nth_repeat; auto.
  rewrite repeat_length; lia. Qed.

(** split a list at a position *)
Lemma zsplit n l : 0 <= n <= zlen l -> exists p q, l = p ++ q /\ zlen p = n.
Proof. intros; exists (ztake n l), (zdrop n l). rewrite ztake_zdrop, zlen_ztake; auto. Qed.
Lemma zsplit1 d n l : 0 <= n < zlen l -> l = ztake n l ++ znth d l n :: zdrop (n + 1) l.
Proof.
  intros. rewrite <- (ztake_zdrop n l) at 1. f_equal.
  destruct (zdrop n l) as [|x q] eqn:E.
  - pose proof (zlen_zdrop n l) as HH. rewrite E in HH. rewrite zlen_nil in HH. lia.
  - replace (n + 1) with (1 + n) by lia. rewrite <- zdrop_zdrop by lia. rewrite E.
    change (zdrop 1 (x :: q)) with q. f_equal.
    pose proof (znth_zdrop d n l 0) as HH. rewrite E in HH. cbn in HH.
    rewrite Z.add_0_r in HH. symmetry; symmetry in HH; rewrite HH by lia; reflexivity.
Qed.

(** buffer accesses *)
Lemma zread_ok d b i : 0 <= i < zlen b -> zread b i = Ret (znth d b i).
Proof.
  unfold zread, zlen, znth; intros. replace (0 <=? i) with true by lia.
  destruct (nth_error b (Z.to_nat i)) eqn:E.
  - apply nth_error_nth with (d := d) in E. now rewrite E.
  - apply nth_error_None in E. lia.
Qed.
Lemma zread_oob b i : i < 0 \/ zlen b <= i -> zread b i = UB.
Proof.
  unfold zread, zlen; intros. destruct (0 <=? i) eqn:E0; [|reflexivity].
  assert (nth_error b (Z.to_nat i) = None) as ->; [apply nth_error_None; lia|reflexivity].
Qed.
Lemma zread_app_exact p x q : zread (p ++ x :: q) (zlen p) = Ret x.
Proof.
  rewrite (zread_ok x). - now rewrite znth_app_exact.
  - rewrite zlen_app, zlen_cons. pose proof (zlen_nonneg p); pose proof (zlen_nonneg q); lia.
Qed.
Lemma zread_at p x q i : i = zlen p -> zread (p ++ x :: q) i = Ret x.
Proof. intros ->; apply zread_app_exact. Qed.
Lemma zread_cons0 (x : A) q : zread (x :: q) 0 = Ret x. Proof. reflexivity. Qed.
Lemma zread_app1 p q i : i < zlen p -> zread (p ++ q) i = zread p i.
Proof.
  unfold zread, zlen; intros. destruct (0 <=? i) eqn:E; [|reflexivity].
  rewrite nth_error_app1 by lia. reflexivity.
Qed.
Lemma zread_app2 p q i : zlen p <= i -> zread (p ++ q) i = zread q (i - zlen p).
Proof.
  intros. pose proof (zlen_nonneg p). unfold zread. replace (0 <=? i) with true by lia.
  replace (0 <=? i - zlen p) with true by lia.
  rewrite nth_error_app2 by (unfold zlen in *; lia).
  replace (Z.to_nat (i - zlen p)) with (Z.to_nat i - length p)%nat by (unfold zlen in *; lia).
  reflexivity.
Qed.
Lemma zread_consS x q i : 0 < i -> zread (x :: q) i = zread q (i - 1).
Proof. intros. change (x :: q) with ([x] ++ q). rewrite zread_app2; [reflexivity|cbn; lia]. Qed.
Lemma zread_ret_inv b i x : zread b i = Ret x -> 0 <= i < zlen b /\ znth x b i = x.
Proof.
  unfold zread, zlen, znth. destruct (0 <=? i) eqn:E; [|discriminate].
  destruct (nth_error b (Z.to_nat i)) eqn:E1; [|discriminate]. intros H; inversion H; subst.
  pose proof (nth_error_nth _ _ x E1).
  assert (nth_error b (Z.to_nat i) <> None) by congruence.
  apply nth_error_Some in H1. split; [lia|assumption].
Qed.

Lemma zwrite_app_exact p x q v : zwrite (p ++ x :: q) (zlen p) v = Ret (p ++ v :: q).
Proof.
  unfold zwrite. rewrite zlen_app, zlen_cons.
  pose proof (zlen_nonneg p); pose proof (zlen_nonneg q).
  replace (_ && _) with true by lia. f_equal.
  rewrite ztake_app_exact. f_equal. f_equal.
  change (x :: q) with ([x] ++ q). rewrite app_assoc.
  replace (zlen p + 1) with (zlen (p ++ [x])) by (rewrite zlen_app; reflexivity).
  apply zdrop_app_exact.
Qed.
Lemma zwrite_at p x q i v : i = zlen p -> zwrite (p ++ x :: q) i v = Ret (p ++ v :: q).
Proof. intros ->; apply zwrite_app_exact. Qed.
Lemma zwrite_oob b i v : i < 0 \/ zlen b <= i -> zwrite b i v = UB.
Proof. intros; unfold zwrite. replace (_ && _) with false by lia. reflexivity. Qed.
Lemma zwrite_ok b i v : 0 <= i < zlen b -> zwrite b i v = Ret (ztake i b ++ v :: zdrop (i + 1) b).
Proof. intros; unfold zwrite. replace (_ && _) with true by lia. reflexivity. Qed.

Lemma zwrites_app_exact p m q l : zlen m = zlen l ->
  zwrites (p ++ m ++ q) (zlen p) l = Ret (p ++ l ++ q).
Proof.
  intros H. unfold zwrites. rewrite !zlen_app.
  pose proof (zlen_nonneg p); pose proof (zlen_nonneg q); pose proof (zlen_nonneg l).
  replace (_ && _) with true by lia. f_equal.
  rewrite ztake_app_exact. do 2 f_equal.
  rewrite app_assoc. rewrite <- H, <- zlen_app. apply zdrop_app_exact.
Qed.
Lemma zwrites_at p m q l i : i = zlen p -> zlen m = zlen l ->
  zwrites (p ++ m ++ q) i l = Ret (p ++ l ++ q).
Proof. intros ->; apply zwrites_app_exact. Qed.
Lemma zwrites_ok b i l : 0 <= i -> i + zlen l <= zlen b ->
  zwrites b i l = Ret (ztake i b ++ l ++ zdrop (i + zlen l) b).
Proof. intros; unfold zwrites. replace (_ && _) with true by lia. reflexivity. Qed.
Lemma zreads_app_exact p m q n : n = zlen m -> zreads (p ++ m ++ q) (zlen p) n = Ret m.
Proof.
  intros ->. unfold zreads. rewrite !zlen_app.
  pose proof (zlen_nonneg p); pose proof (zlen_nonneg q); pose proof (zlen_nonneg m).
  replace (_ && _) with true by lia. f_equal.
  rewrite zdrop_app_exact. apply ztake_app_exact.
Qed.
Lemma zreads_at p m q i n : i = zlen p -> n = zlen m -> zreads (p ++ m ++ q) i n = Ret m.
Proof. intros ->; apply zreads_app_exact. Qed.
Lemma zreads_ok b i n : 0 <= i -> 0 <= n -> i + n <= zlen b ->
  zreads b i n = Ret (ztake n (zdrop i b)).
Proof. intros; unfold zreads. replace (_ && _) with true by lia. reflexivity. Qed.
Lemma zreads_oob b i n : i < 0 \/ n < 0 \/ zlen b < i + n -> zreads b i n = UB.
Proof. intros; unfold zreads. replace (_ && _) with false by lia. reflexivity. Qed.
Lemma zwrites_oob b i l : i < 0 \/ zlen b < i + zlen l -> zwrites b i l = UB.
Proof. intros; unfold zwrites. replace (_ && _) with false by lia. reflexivity. Qed.

(** pointwise view of a write *)
Lemma znth_upd d b i v j : 0 <= i < zlen b -> 0 <= j ->
  znth d (ztake i b ++ v :: zdrop (i + 1) b) j = if j =? i then v else znth d b j.
Proof.
  intros. destruct (j =? i) eqn:E.
  - replace j with (zlen (ztake i b)) by (rewrite zlen_ztake; lia). apply znth_app_exact.
  - destruct (Z_lt_le_dec j i).
    + rewrite znth_app1 by (rewrite zlen_ztake; lia). apply znth_ztake; lia.
    + rewrite znth_app2 by (rewrite zlen_ztake; lia). rewrite zlen_ztake by lia.
      rewrite znth_consS by lia. rewrite znth_zdrop by lia. f_equal; lia.
Qed.
Lemma zlen_upd b i (v : A) : 0 <= i < zlen b ->
  zlen (ztake i b ++ v :: zdrop (i + 1) b) = zlen b.
Proof. intros; rewrite zlen_app, zlen_cons, zlen_ztake, zlen_zdrop; lia. Qed.
End ZL.

Lemma znth_map {A B} (f : A -> B) d d' l i : 0 <= i < zlen l ->
  znth d' (map f l) i = f (znth d l i).
Proof.
  unfold znth, zlen; intros. rewrite (nth_indep _ d' (f d)) by (rewrite map_length; lia).
  apply map_nth.
Qed.

#[global] Hint Rewrite @zlen_nil @zlen_cons @zlen_app @zlen_rev @zlen_map : zlen.
Ltac zl := autorewrite with zlen in *.
(** lengths are non-negative: add the facts lia needs *)
Ltac zpos :=
  repeat match goal with
  | |- context [zlen ?l] => lazymatch goal with H : 0 <= zlen l |- _ => fail | _ => let Hz := fresh "Zn" in pose proof (zlen_nonneg l) as Hz end
  | H : context [zlen ?l] |- _ => lazymatch goal with H' : 0 <= zlen l |- _ => fail | _ => let Hz := fresh "Zn" in pose proof (zlen_nonneg l) as Hz end
  end.
Ltac zlia := zl; zpos; lia.

Lemma u8_id x : 0 <= x < 256 -> u8 x = x. Proof. intros; apply Z.mod_small; lia. Qed.
Lemma u32_id x : 0 <= x < 4294967296 -> u32 x = x. Proof. intros; apply Z.mod_small; lia. Qed.
Lemma u64_id x : 0 <= x < 18446744073709551616 -> u64 x = x. Proof. intros; apply Z.mod_small; lia. Qed.
Lemma u8_range x : 0 <= u8 x < 256. Proof. apply Z.mod_pos_bound; lia. Qed.
Lemma u32_range x : 0 <= u32 x < 4294967296. Proof. apply Z.mod_pos_bound; lia. Qed.
Lemma u64_range x : 0 <= u64 x < 18446744073709551616. Proof. apply Z.mod_pos_bound; lia. Qed.
Lemma s32_id x : -2147483648 <= x < 2147483648 -> s32 x = x.
Proof. intros; unfold s32; rewrite Z.mod_small by lia; lia. Qed.
Lemma s64_id x : -9223372036854775808 <= x < 9223372036854775808 -> s64 x = x.
Proof. intros; unfold s64; rewrite Z.mod_small by lia; lia. Qed.
Lemma s8_id x : -128 <= x < 128 -> s8 x = x.
Proof. intros; unfold s8; rewrite Z.mod_small by lia; lia. Qed.
