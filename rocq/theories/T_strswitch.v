(** C92: the character sets of include/strswitch.h. *)
From Coq Require Import String.
From Verif Require Import Base M_str M_strswitch S_strswitch.

Definition nodupb (l : list Z) : bool := (fix go l := match l with [] => true | x :: l => negb (existsb (Z.eqb x) l) && go l end) l.
Lemma nodupb_ok l : nodupb l = true -> NoDup l.
Proof.
  unfold nodupb. induction l as [|x l IH]; intros H; [constructor|]. apply andb_prop in H as [H1 H2]. constructor; [|auto]. intros I. apply negb_true_iff in H1. rewrite <- not_true_iff_false in H1. apply H1. apply existsb_exists. exists x. split; [exact I|apply Z.eqb_refl].
Qed.
(** C92: no list has a character twice, so that every one of the macros can be used in a switch *)
Theorem c92_usable_in_switch L : In L [UC; LC; LETTERS; NUMS; ALPHA; MATH_OPS; NON_ALPHA_C; NON_ALPHA_SH; NON_ALPHA; PRINTABLE; C_PRINTABLE; SH_PRINTABLE] -> NoDup L.
Proof. intros H. repeat (destruct H as [<-|H]; [apply nodupb_ok; vm_compute; reflexivity|]). destruct H. Qed.
Print Assumptions c92_usable_in_switch.
Lemma in_all L c : In c L <-> existsb (Z.eqb c) L = true.
Proof. rewrite existsb_exists. split; [intros H; exists c; split; [exact H|apply Z.eqb_refl]|intros (x & H & E); apply Z.eqb_eq in E; now subst]. Qed.
Lemma over L s : forallb (fun c => existsb (Z.eqb c) L) s = true -> Forall (fun c => In c L) s.
Proof. intros H. apply Forall_forall. intros c I. rewrite forallb_forall in H. apply in_all. now apply H. Qed.
Lemma by_range (P Q : Z -> bool) lo n : forallb (fun k => Bool.eqb (P (lo + Z.of_nat k)) (Q (lo + Z.of_nat k))) (seq 0 n) = true -> forall c, lo <= c < lo + Z.of_nat n -> P c = Q c.
Proof.
  intros H c R. rewrite forallb_forall in H. specialize (H (Z.to_nat (c - lo)) ltac:(apply in_seq; lia)). cbv beta in H. rewrite Z2Nat.id in H by lia. replace (lo + (c - lo)) with c in H by lia. now apply Bool.eqb_prop.
Qed.
Definition bounded (L : list Z) : bool := forallb (fun c => (0 <=? c) && (c <? 128)) L.
Lemma bounded_in L c : bounded L = true -> In c L -> 0 <= c < 128.
Proof. intros H I. unfold bounded in H. rewrite forallb_forall in H. specialize (H c I). lia. Qed.
(** membership in a list decided by a test on 0..127 *)
Lemma same L (q : Z -> bool) : bounded L = true -> (forall c, q c = true -> 0 <= c < 128) ->
  forallb (fun k => Bool.eqb (existsb (Z.eqb (0 + Z.of_nat k)) L) (q (0 + Z.of_nat k))) (seq 0 128) = true -> forall c, In c L <-> q c = true.
Proof.
  intros B Q H c. pose proof (by_range (fun c => existsb (Z.eqb c) L) q 0 128 H) as E. cbv beta in E. split; intros X.
  - rewrite <- E; [now apply in_all|]. pose proof (bounded_in _ _ B X). lia.
  - apply in_all. rewrite E; [exact X|]. specialize (Q c X). lia.
Qed.
(** C92: the letters, the letters and digits, and what PRINTABLE is: the printable characters except ^, ` and | *)
Theorem c92_sets c :
  (In c LETTERS <-> 65 <= c <= 90 \/ 97 <= c <= 122) /\
  (In c ALPHA <-> 48 <= c <= 57 \/ 65 <= c <= 90 \/ 97 <= c <= 122) /\
  (In c PRINTABLE <-> printable c /\ ~ In c (chars "^`|")) /\
  (In c C_PRINTABLE <-> printable c /\ ~ In c (chars "^`|?'\""")) /\
  (In c SH_PRINTABLE <-> printable c /\ ~ In c (chars "^`|?'\""$")).
Proof.
  unfold printable. split; [|split; [|split; [|split]]].
  - rewrite (same LETTERS (fun c => (65 <=? c) && (c <=? 90) || (97 <=? c) && (c <=? 122))); [lia|vm_compute; reflexivity|intros; lia|vm_compute; reflexivity].
  - rewrite (same ALPHA (fun c => (48 <=? c) && (c <=? 57) || (65 <=? c) && (c <=? 90) || (97 <=? c) && (c <=? 122))); [lia|vm_compute; reflexivity|intros; lia|vm_compute; reflexivity].
  - rewrite (same PRINTABLE (fun c => (32 <=? c) && (c <=? 126) && negb (existsb (Z.eqb c) (chars "^`|")))); [|vm_compute; reflexivity|intros; lia|vm_compute; reflexivity]. rewrite in_all. destruct (existsb (Z.eqb c) (chars "^`|")); lia.
  - rewrite (same C_PRINTABLE (fun c => (32 <=? c) && (c <=? 126) && negb (existsb (Z.eqb c) (chars "^`|?'\""")))); [|vm_compute; reflexivity|intros; lia|vm_compute; reflexivity]. rewrite in_all. destruct (existsb (Z.eqb c) (chars "^`|?'\""")); lia.
  - rewrite (same SH_PRINTABLE (fun c => (32 <=? c) && (c <=? 126) && negb (existsb (Z.eqb c) (chars "^`|?'\""$")))); [|vm_compute; reflexivity|intros; lia|vm_compute; reflexivity]. rewrite in_all. destruct (existsb (Z.eqb c) (chars "^`|?'\""$")); lia.
Qed.
Print Assumptions c92_sets.
(** C92: PRINTABLE is not the set of printable characters *)
Theorem c92_printable_refuted : exists c, printable c /\ ~ In c PRINTABLE.
Proof. exists 94. split; [unfold printable; lia|]. rewrite in_all. vm_compute. discriminate. Qed.
Print Assumptions c92_printable_refuted.
(** C92: any text over C_PRINTABLE stands for itself in a C string literal, trigraphs included *)
Lemma no_trigraphs s : ~ In 63 s -> trigraphs s = s.
Proof.
  induction s as [|c s IH]; intros N; [reflexivity|]. assert (c <> 63) by (intros ->; apply N; now left). assert (E : trigraphs (c :: s) = c :: trigraphs s).
  { destruct c as [|p|p]; try reflexivity. destruct p as [[[[[[]|[]|]|[[]|[]|]|]|[[[]|[]|]|[[]|[]|]|]|]|[[[[]|[]|]|[[]|[]|]|]|[[[]|[]|]|[[]|[]|]|]|]|]|p|]; try reflexivity. lia. }
  rewrite E, IH; [reflexivity|]. intros I. apply N. now right.
Qed.
Theorem c92_c_literal s : Forall (fun c => In c C_PRINTABLE) s -> c_literal s = Some s.
Proof.
  intros F. unfold c_literal. rewrite no_trigraphs.
  - replace (forallb c_plain s) with true; [reflexivity|]. symmetry. apply forallb_forall. intros c I. rewrite Forall_forall in F. specialize (F c I). apply c92_sets in F. destruct F as [P N]. unfold c_plain. apply negb_true_iff. rewrite <- not_true_iff_false, <- in_all. intros X. apply N. unfold printable in P. cbn in X |- *. lia.
  - intros I. rewrite Forall_forall in F. specialize (F 63 I). rewrite in_all in F. vm_compute in F. discriminate.
Qed.
Print Assumptions c92_c_literal.
(** C92: any text over SH_PRINTABLE stands for itself between single and between double quotes in the shell *)
Theorem c92_sh_literal s : Forall (fun c => In c SH_PRINTABLE) s -> sq_literal s = Some s /\ dq_literal s = Some s.
Proof.
  intros F. assert (K : forall c, In c s -> ~ In c [39; 36; 96; 92; 34]). { intros c I X. rewrite Forall_forall in F. specialize (F c I). apply c92_sets in F. destruct F as [P N]. apply N. cbn in X |- *. lia. }
  unfold sq_literal, dq_literal. split.
  - replace (existsb (Z.eqb 39) s) with false; [reflexivity|]. symmetry. apply not_true_iff_false. rewrite <- in_all. intros I. apply (K _ I). now left.
  - replace (existsb _ s) with false; [reflexivity|]. symmetry. apply not_true_iff_false. rewrite existsb_exists. intros (c & I & E). rewrite <- in_all in E. apply (K _ I). now right.
Qed.
Print Assumptions c92_sh_literal.
(** C92: a text over C_PRINTABLE is not safe in the shell, and one over PRINTABLE not in C: $, and the trigraph ??= *)
Theorem c92_not_exchangeable_refuted : Forall (fun c => In c C_PRINTABLE) [36] /\ dq_literal [36] = None /\ Forall (fun c => In c PRINTABLE) [63; 63; 61] /\ c_literal [63; 63; 61] = Some [35].
Proof. split; [|split; [|split]]; try (apply over); vm_compute; reflexivity. Qed.
Print Assumptions c92_not_exchangeable_refuted.
Example c92_ex : c_literal (chars "a = b[1] + {2} % 3; #x") = Some (chars "a = b[1] + {2} % 3; #x") /\ c_literal (chars "a\n") = None /\ dq_literal (chars "$HOME") = None /\ Forall (fun c => In c SH_PRINTABLE) (chars "ls -l *.c & (make)").
Proof. split; [|split; [|split]]; try (apply over); vm_compute; reflexivity. Qed.
