(** Proofs for M_lstest. *)
From Verif Require Import Base M_sblist M_tglist D_sblist D_tglist M_tltest M_lstest S_lstest.
From Verif Require P_sblist P_tglist.

Lemma int_of_bytes x : 0 <= x < 2 ^ 31 -> int_of (int_bytes x) = x.
Proof.
  intros H. unfold int_of, int_bytes. change (znth 0 [?a; ?b; ?c; ?d] 0) with a.
  cbv [znth Z.to_nat Pos.to_nat Pos.iter_op Nat.add nth]. rewrite <- (s32_id x) at 5 by lia. f_equal. Z.div_mod_to_equations. lia.
Qed.
Lemma int_r_ok x : -2147483648 <= x < 2147483648 -> int_r x = Ret x.
Proof. intros H. unfold int_r, int_ok. destruct (_ && _) eqn:E; [reflexivity|exfalso; lia]. Qed.
(** ** any list with an add that fails only when it needs memory it does not get *)
Fixpoint zseq (i : Z) (n : nat) : list Z := match n with O => [] | S n => i :: zseq (i + 1) n end.
Lemma zlen_zseq n : forall i, zlen (zseq i n) = Z.of_nat n.
Proof. induction n as [|n IH]; intros i; cbn [zseq]; [reflexivity|]. rewrite zlen_cons, IH. lia. Qed.
Lemma zseq_app a b : forall i, zseq i (a + b) = zseq i a ++ zseq (i + Z.of_nat a) b.
Proof. induction a as [|a IH]; intros i; cbn [zseq app Nat.add]; [f_equal; lia|]. rewrite IH. do 2 f_equal. f_equal. lia. Qed.
Lemma zseq_nth n : forall i k d, 0 <= k < Z.of_nat n -> znth d (zseq i n) k = i + k.
Proof.
  induction n as [|n IH]; intros i k d K; [lia|]. cbn [zseq]. destruct (Z.eq_dec k 0) as [->|N]; [unfold znth; cbn; lia|].
  unfold znth. destruct (Z.to_nat k) as [|j] eqn:E; [lia|]. cbn [nth]. specialize (IH (i + 1) (k - 1) d ltac:(lia)). unfold znth in IH. replace (Z.to_nat (k - 1)) with j in IH by lia. rewrite IH. lia.
Qed.
Section Fill.
Context {L : Type}.
Variable add : nat -> L -> list Z -> out L.
Variable no_mem : nat -> Prop.     (* the k-th call gets no memory *)
Variable needs : Z -> Prop.        (* a call needs memory when there are that many items *)
Variable repr : L -> list (list Z) -> Prop.
Variable good : list Z -> Prop.    (* items that may be added *)
Variable maxlen : Z.
Hypothesis add_some : forall k l xs x, repr l xs -> good x -> zlen xs < maxlen -> ~ (no_mem k /\ needs (zlen xs)) -> exists l', add k l x = Ret l' /\ repr l' (xs ++ [x]).
Hypothesis add_none : forall k l xs x, repr l xs -> good x -> zlen xs < maxlen -> no_mem k -> needs (zlen xs) -> add k l x = Ret l.
Hypothesis dec : forall k n, {no_mem k /\ needs n} + {~ (no_mem k /\ needs n)}.
Variable itm : Z -> list Z.
Hypothesis good_itm : forall i, 0 <= i -> good (itm i).
Variable k0 : nat.
Fixpoint fill (n : nat) (i : Z) (l : L) : out L :=
  match n with O => Ret l | S n => let* l := add (k0 + Z.to_nat i) l (itm i) in fill n (i + 1) l end.
Lemma fill_app a b : forall i l, fill (a + b) i l = (let* l := fill a i l in fill b (i + Z.of_nat a) l).
Proof using All.
  induction a as [|a IH]; intros i l; cbn [fill Nat.add bind]; [f_equal; lia|]. destruct (add _ l _) as [l'| |]; cbn [bind]; try reflexivity. rewrite IH. destruct (fill a (i + 1) l'); cbn [bind]; try reflexivity. f_equal. lia.
Qed.
Lemma fill_later n : forall i l xs, 0 <= i -> repr l xs -> zlen xs + Z.of_nat n <= maxlen -> exists l' rs, fill n i l = Ret l' /\ repr l' (xs ++ map itm rs) /\ Forall (fun r => i <= r < i + Z.of_nat n) rs.
Proof using All.
  induction n as [|n IH]; intros i l xs I R M; cbn [fill]; [exists l, []; cbn [map]; rewrite app_nil_r; auto|].
  assert (W : forall rs, Forall (fun r => i + 1 <= r < i + 1 + Z.of_nat n) rs -> Forall (fun r => i <= r < i + Z.of_nat (S n)) rs) by (intros rs; apply Forall_impl; intros; lia).
  destruct (dec (k0 + Z.to_nat i) (zlen xs)) as [[D1 D2]|D].
  - rewrite (add_none _ l xs) by (auto; lia). cbn [bind]. destruct (IH (i + 1) l xs) as (l' & rs & E & R' & F); [lia|assumption|lia|]. exists l', rs. auto.
  - destruct (add_some (k0 + Z.to_nat i)%nat l xs (itm i) R) as (l1 & -> & R1); [auto|lia|assumption|]. cbn [bind]. destruct (IH (i + 1) l1 (xs ++ [itm i])) as (l' & rs & E & R' & F); [lia|assumption|rewrite zlen_app; change (zlen [itm i]) with 1; lia|].
    exists l', (i :: rs). split; [exact E|]. split; [cbn [map]; rewrite <- app_assoc in R'; exact R'|]. constructor; [lia|auto].
Qed.
Lemma fill_good n : forall i l xs, 0 <= i -> repr l xs -> zlen xs + Z.of_nat n <= maxlen -> (forall m, 0 <= m < Z.of_nat n -> ~ (no_mem (k0 + Z.to_nat (i + m)) /\ needs (zlen xs + m))) ->
  exists l', fill n i l = Ret l' /\ repr l' (xs ++ map itm (zseq i n)).
Proof using All.
  induction n as [|n IH]; intros i l xs I R M H; cbn [fill zseq map]; [exists l; rewrite app_nil_r; auto|].
  destruct (add_some (k0 + Z.to_nat i) l xs (itm i) R) as (l1 & -> & R1); [auto|lia|specialize (H 0 ltac:(lia)); rewrite !Z.add_0_r in H; exact H|]. cbn [bind].
  destruct (IH (i + 1) l1 (xs ++ [itm i])) as (l' & E & R'); [lia|assumption|rewrite zlen_app; change (zlen [itm i]) with 1; lia| |exists l'; rewrite <- app_assoc in R'; auto].
  intros m Hm. rewrite zlen_app. change (zlen [itm i]) with 1. specialize (H (m + 1) ltac:(lia)). replace (i + 1 + m) with (i + (m + 1)) by lia. replace (zlen xs + 1 + m) with (zlen xs + (m + 1)) by lia. exact H.
Qed.
Definition all_mem (n : nat) : Prop := forall m, 0 <= m < Z.of_nat n -> needs m -> ~ no_mem (k0 + Z.to_nat m).
Lemma first_bad n : all_mem n \/ exists j, 0 <= j < Z.of_nat n /\ no_mem (k0 + Z.to_nat j) /\ needs j /\ all_mem (Z.to_nat j).
Proof using All.
  induction n as [|n IH]; [left; intros m Hm; lia|]. destruct IH as [H|(j & J & B & B2 & H)]; [|right; exists j; repeat split; auto; lia].
  destruct (dec (k0 + n) (Z.of_nat n)) as [[D1 D2]|D].
  - right. exists (Z.of_nat n). rewrite Nat2Z.id. repeat split; auto; lia.
  - left. intros m Hm N. destruct (Z.eq_dec m (Z.of_nat n)) as [->|]; [rewrite Nat2Z.id; tauto|apply H; [lia|assumption]].
Qed.
Lemma fill_all n l : repr l [] -> Z.of_nat n <= maxlen -> exists l' rs, fill n 0 l = Ret l' /\ repr l' (map itm rs) /\
  (all_mem n /\ rs = zseq 0 n \/
   exists j later, 0 <= j < Z.of_nat n /\ ~ all_mem n /\ needs j /\ rs = zseq 0 (Z.to_nat j) ++ later /\ Forall (fun r => j < r < Z.of_nat n) later).
Proof using All.
  intros R M. destruct (first_bad n) as [H|(j & J & B & B2 & H)].
  - destruct (fill_good n 0 l [] ltac:(lia) R ltac:(cbn; lia)) as (l' & E & R'); [intros m Hm [X Y]; cbn in X, Y; exact (H m Hm Y X)|]. exists l', (zseq 0 n). cbn [app] in R'. auto.
  - assert (Ef : fill n 0 l = (let* l := fill (Z.to_nat j) 0 l in fill (S (n - S (Z.to_nat j))) (0 + Z.of_nat (Z.to_nat j)) l)).
    { rewrite <- fill_app. f_equal. lia. }
    rewrite Ef. clear Ef.
    destruct (fill_good (Z.to_nat j) 0 l [] ltac:(lia) R ltac:(cbn; lia)) as (l1 & -> & R1); [intros m Hm [X Y]; cbn in X, Y; exact (H m Hm Y X)|]. cbn [bind app] in *. cbn [fill].
    assert (L1 : zlen (map itm (zseq 0 (Z.to_nat j))) = j) by (unfold zlen; rewrite map_length; pose proof (zlen_zseq (Z.to_nat j) 0) as Q; unfold zlen in Q; lia).
    rewrite (add_none _ l1 _ _ R1) by (rewrite ?L1; try (apply good_itm; lia); try lia; replace (0 + Z.of_nat (Z.to_nat j)) with j by lia; assumption). cbn [bind].
    destruct (fill_later (n - S (Z.to_nat j)) (0 + Z.of_nat (Z.to_nat j) + 1) l1 _ ltac:(lia) R1 ltac:(lia)) as (l' & rs & E & R' & F). exists l', (zseq 0 (Z.to_nat j) ++ rs). split; [exact E|]. split; [now rewrite map_app|]. right. exists j, rs.
    split; [lia|]. split; [intros X; exact (X j J B2 B)|]. split; [assumption|]. split; [reflexivity|]. eapply Forall_impl; [|exact F]. cbn. intros; lia.
Qed.
End Fill.

(** ** sblist *)
Section SB.
Variables (ds bl maxlen : Z) (al : nat -> alloc).
Hypothesis Hds : 1 <= ds.
Hypothesis Hbl : 1 <= bl.
Hypothesis Hmax : (maxlen + bl) * ds < 2 ^ 64.
Hypothesis Hm : 0 <= maxlen.
Definition srepr (l : sbl) (xs : list (list Z)) : Prop :=
  P_sblist.Inv (maxlen + bl) l xs /\ isz l = ds /\ bits l = bl /\ (bl | capa l) /\ capa l < zlen xs + bl.
Lemma srepr_full l xs : srepr l xs -> (cnt l = capa l <-> (bl | zlen xs)).
Proof using All.
  intros (J & E1 & E2 & D & Lt). pose proof (P_sblist.i_cnt _ _ _ J) as C. pose proof (P_sblist.i_capa _ _ _ J) as Cc. split; intros H.
  - rewrite <- C, H. exact D.
  - destruct D as [a Ha]. destruct H as [b Hb]. rewrite C in *. rewrite Ha in *. rewrite Hb in *. assert (a = b) by nia. now subst.
Qed.
Lemma add_capa a l x r l' : sblist_add a l x = Ret (r, l') -> r = 1 -> capa l' = if cnt l =? capa l then u64 (capa l + bits l) else capa l.
Proof using All.
  unfold sblist_add, sblist_grow_if_needed. intros E ->. destruct (cnt l =? capa l).
  - destruct a as [j|]; [|discriminate]. cbn [Z.eqb] in E. cbv iota in E. unfold sblist_set in E. destruct (_ <=? _); [discriminate|]. destruct (zwrites _ _ _); try discriminate. cbn [bind] in E. injection E as <-. reflexivity.
  - cbn [Z.eqb] in E. cbv iota in E. unfold sblist_set in E. destruct (_ <=? _); [discriminate|]. destruct (zwrites _ _ _); try discriminate. cbn [bind] in E. injection E as <-. reflexivity.
Qed.
Lemma sadd_some k l xs x : srepr l xs -> zlen x = ds -> zlen xs < maxlen -> ~ (al k = None /\ (bl | zlen xs)) -> exists l', sadd al k l x = Ret l' /\ srepr l' (xs ++ [x]).
Proof using All.
  intros R X M N. pose proof (srepr_full l xs R) as Fu. destruct R as (J & E1 & E2 & D & Lt). unfold sadd.
  assert (Same : exists j, sblist_add (al k) l x = sblist_add (Some j) l x).
  { destruct (al k) as [j|]; [now exists j|]. exists (fun _ => 0). unfold sblist_add, sblist_grow_if_needed. destruct (Z.eqb_spec (cnt l) (capa l)); [|reflexivity]. exfalso. apply N. tauto. }
  destruct Same as [j Ej]. rewrite Ej. destruct (P_sblist.add_ok (maxlen + bl) (Some j) l xs x J) as (r & l' & E & [(-> & -> & Q)|(-> & J' & E1' & E2')]); [lia|rewrite E1; lia|lia|discriminate|].
  rewrite E. cbn [bind]. exists l'. split; [reflexivity|]. split; [exact J'|]. split; [lia|]. split; [lia|]. pose proof (add_capa _ _ _ _ _ E eq_refl) as Cp. pose proof (P_sblist.i_cnt _ _ _ J) as C. pose proof (P_sblist.i_capa _ _ _ J) as Cc. pose proof (P_sblist.i_lim _ _ _ J). pose proof (zlen_nonneg xs). rewrite zlen_app. change (zlen [x]) with 1.
  destruct (Z.eqb_spec (cnt l) (capa l)).
  - rewrite u64_id in Cp by nia. rewrite Cp, E2. split; [apply Z.divide_add_r; [exact D|exists 1; lia]|lia].
  - rewrite Cp. split; [exact D|]. lia.
Qed.
Lemma sadd_none k l xs x : srepr l xs -> zlen x = ds -> zlen xs < maxlen -> al k = None -> (bl | zlen xs) -> sadd al k l x = Ret l.
Proof using All.
  intros R X M N D. apply (srepr_full l xs R) in D. unfold sadd, sblist_add, sblist_grow_if_needed. rewrite N, D, Z.eqb_refl. reflexivity.
Qed.
Lemma sdec k n : {al k = None /\ (bl | n)} + {~ (al k = None /\ (bl | n))}.
Proof using All.
  destruct (al k) as [j|]; [right; intros [X _]; discriminate|]. destruct (Z.eq_dec (n mod bl) 0) as [E|E].
  - left. split; [reflexivity|]. apply Z.mod_divide; lia.
  - right. intros [_ X]. apply E. apply Z.mod_divide; [lia|exact X].
Qed.
Lemma sget_some l xs i : srepr l xs -> 0 <= i < zlen xs -> sget l i = Ret (Some (znth [] xs i)).
Proof using All.
  intros (J & E1 & E2 & D & Lt) I. pose proof (P_sblist.i_capa _ _ _ J). pose proof (P_sblist.i_cnt _ _ _ J). pose proof (P_sblist.i_lim _ _ _ J). destruct (P_sblist.inv_reads _ l xs J ltac:(rewrite E1; lia)) as (_ & R & _). destruct (R i I) as (off & E & Z). unfold sget. rewrite u64_id by nia. now rewrite E, Z.
Qed.
Lemma sget_none l xs i : srepr l xs -> zlen xs <= i < 2 ^ 64 -> sget l i = Ret None.
Proof using All.
  intros (J & E1 & E2 & D & Lt) I. pose proof (zlen_nonneg xs). destruct (P_sblist.inv_reads _ l xs J ltac:(rewrite E1; lia)) as (_ & _ & R). unfold sget. rewrite u64_id by lia. now rewrite R.
Qed.
Lemma sinit : exists l, sblist_init ds bl = Ret l /\ srepr l [].
Proof using All.
  destruct (P_sblist.init_ok ds bl Hds Hbl) as (l & E & E1 & E2 & J). exists l. split; [exact E|]. split; [apply J; lia|]. split; [exact E1|]. split; [exact E2|].
  assert (Ec : capa l = 0). { unfold sblist_init in E. replace (bl =? 0) with false in E by lia. injection E as <-. reflexivity. } rewrite Ec. split; [apply Z.divide_0_r|cbn; lia].
Qed.
End SB.

(** ** tglist *)
Definition tadd (ds : Z) (al : nat -> talloc (list Z)) (k : nat) (l : tgl (list Z)) (x : list Z) : out (tgl (list Z)) := let* (_, l) := tglist_add ds (al k) l x in Ret l.
Notation tneeds := tglist_grows.
Section TG.
Variables (ds maxlen : Z) (al : nat -> talloc (list Z)).
Hypothesis Hds : 1 <= ds.
Hypothesis Hmax : (2 * maxlen + 4) * ds < 2 ^ 64.
Hypothesis Hm : 0 <= maxlen.
Definition trepr (l : tgl (list Z)) (xs : list (list Z)) : Prop :=
  P_tglist.trep ds l xs /\ (tcapa l = 0 \/ tcapa l = 4 /\ 1 <= zlen xs \/ tcapa l < 2 * zlen xs).
Lemma trepr_full l xs : trepr l xs -> (tcnt l = tcapa l <-> tneeds (zlen xs)).
Proof using All.
  intros (J & Lt). pose proof (P_tglist.r_cnt _ _ _ J) as C. pose proof (P_tglist.trep_le _ _ _ J) as Le. pose proof (zlen_nonneg xs) as Nn. rewrite C. split; intros H.
  - rewrite H. destruct (P_tglist.r_pow _ _ _ J) as [E|(k & K & E)]; [left; exact E|right; exists k; auto].
  - destruct (P_tglist.r_pow _ _ _ J) as [E|(k & K & E)]; [lia|]. assert (0 < 2 ^ k) by (apply Z.pow_pos_nonneg; lia). destruct H as [H|(m & M & H)]; [lia|]. rewrite H, E in *. destruct (Z.lt_trichotomy m k) as [Q|[->|Q]]; [|reflexivity|].
    + exfalso. assert (2 ^ (m + 1) <= 2 ^ k) by (apply Z.pow_le_mono_r; lia). rewrite Z.pow_add_r in * by lia. assert (1 <= 2 ^ m) by (pose proof (Z.pow_pos_nonneg 2 m); lia). lia.
    + exfalso. assert (2 ^ k < 2 ^ m) by (apply Z.pow_lt_mono_r; lia). lia.
Qed.
Lemma tadd_capa a (l : tgl (list Z)) x r l' : tglist_add ds a l x = Ret (r, l') -> r = 1 -> tcapa l' = if tcnt l =? tcapa l then (if tcapa l =? 0 then 4 else u64 (tcapa l * 2)) else tcapa l.
Proof using All.
  unfold tglist_add, tglist_prepare_addition, tglist_grow_if_needed. intros E ->. destruct (tcnt l =? tcapa l).
  - destruct a as [j|]; [|cbn [Z.eqb negb] in E; discriminate]. cbn [Z.eqb negb tcnt tcapa tmem] in E. destruct (u64 (tcnt l + 1) =? 0); cbn [Z.eqb negb] in E; [discriminate|]. unfold tglist_set in E. destruct (zwrite _ _ _); try discriminate. cbn [bind] in E. injection E as <-. reflexivity.
  - cbn [Z.eqb negb tcnt tcapa tmem] in E. destruct (u64 (tcnt l + 1) =? 0); cbn [Z.eqb negb] in E; [discriminate|]. unfold tglist_set in E. destruct (zwrite _ _ _); try discriminate. cbn [bind] in E. injection E as <-. reflexivity.
Qed.
Lemma tadd_one k l xs x : trepr l xs -> zlen x = ds -> zlen xs < maxlen -> ~ (al k = None /\ tneeds (zlen xs)) -> exists l', tglist_add ds (al k) l x = Ret (1, l') /\ trepr l' (xs ++ [x]).
Proof using All.
  intros R X M N. pose proof (trepr_full l xs R) as Fu. destruct R as (J & Lt).
  assert (Same : exists j, tglist_add ds (al k) l x = tglist_add ds (Some j) l x).
  { destruct (al k) as [j|]; [now exists j|]. exists (fun _ => []). unfold tglist_add, tglist_prepare_addition, tglist_grow_if_needed. destruct (Z.eqb_spec (tcnt l) (tcapa l)); [|reflexivity]. exfalso. apply N. tauto. }
  destruct Same as [j Ej]. rewrite Ej. pose proof (zlen_nonneg xs). destruct (P_tglist.add_ok ds Hds (Some j) l xs x J) as (r & l' & E & [(-> & -> & Q)|(-> & J')]); [nia|discriminate|].
  rewrite E. cbn [bind]. exists l'. split; [reflexivity|]. split; [exact J'|]. pose proof (tadd_capa _ _ _ _ _ E eq_refl) as Cp. pose proof (P_tglist.r_cnt _ _ _ J) as C. pose proof (P_tglist.trep_le _ _ _ J) as Le. pose proof (P_tglist.r_size _ _ _ J). rewrite zlen_app. change (zlen [x]) with 1.
  destruct (Z.eqb_spec (tcnt l) (tcapa l)).
  - destruct (Z.eqb_spec (tcapa l) 0); [rewrite Cp; lia|]. rewrite u64_id in Cp by nia. lia.
  - rewrite Cp. lia.
Qed.
Lemma tadd_some k l xs x : trepr l xs -> zlen x = ds -> zlen xs < maxlen -> ~ (al k = None /\ tneeds (zlen xs)) -> exists l', tadd ds al k l x = Ret l' /\ trepr l' (xs ++ [x]).
Proof using All. intros R X M N. destruct (tadd_one k l xs x R X M N) as (l' & E & R'). exists l'. unfold tadd. now rewrite E. Qed.
Lemma tadd_none k l xs x : trepr l xs -> zlen x = ds -> zlen xs < maxlen -> al k = None -> tneeds (zlen xs) -> tadd ds al k l x = Ret l.
Proof using All.
  intros R X M N D. apply (trepr_full l xs R) in D. unfold tadd, tglist_add, tglist_prepare_addition, tglist_grow_if_needed. rewrite N, D, Z.eqb_refl. reflexivity.
Qed.
Lemma tneeds_dec n : {tneeds n} + {~ tneeds n}.
Proof using All.
  destruct (Z.eq_dec n 0) as [->|N0]; [left; now left|]. destruct (Z.eq_dec n (4 * 2 ^ Z.log2 (n / 4))) as [E|E].
  - left. right. exists (Z.log2 (n / 4)). split; [apply Z.log2_nonneg|exact E].
  - right. intros [H|(m & M & H)]; [contradiction|]. apply E. rewrite H at 2. rewrite (Z.mul_comm 4 (2 ^ m)), Z.div_mul by lia. rewrite Z.log2_pow2 by lia. exact H.
Qed.
Lemma tdec k n : {al k = None /\ tneeds n} + {~ (al k = None /\ tneeds n)}.
Proof using All.
  destruct (al k) as [j|]; [right; intros [X _]; discriminate|]. destruct (tneeds_dec n); [left; auto|right; tauto].
Qed.
Lemma tget_some l xs i : trepr l xs -> 0 <= i < zlen xs -> tget l i = Ret (Some (znth [] xs i)).
Proof using All. intros (J & _) I. unfold tget. now rewrite (P_tglist.get_znth ds l xs i [] J I). Qed.
Lemma tget_none l xs : trepr l xs -> tneeds (zlen xs) -> tget l (zlen xs) = UB.
Proof using All.
  intros R N. pose proof R as (J & _). apply (trepr_full l xs R) in N. pose proof (P_tglist.r_cnt _ _ _ J) as C. pose proof (P_tglist.r_capa _ _ _ J) as K. unfold tget, tglist_get. now rewrite zread_oob by lia.
Qed.
Lemma tinit : trepr tglist_init [].
Proof using All. split; [apply P_tglist.init_trep; lia|left; reflexivity]. Qed.
End TG.

(** ** the static struct *)
Section St.
Variables (ds : Z) (rnd : nat -> Z) (dist : nat -> option Z).
Hypothesis Hds : 8 < ds.
Hypothesis Hdist : forall k, dist k <> None.
Lemma make_ok k x y st : zlen st = ds -> exists st', make_struct ds rnd dist k x y st = Ret st' /\ zlen st' = ds /\ ztake 4 st' = int_bytes x /\ ztake 4 (zdrop 4 st') = int_bytes y.
Proof using All.
  intros H. unfold make_struct. destruct (dist k) as [b|] eqn:E; [|exfalso; exact (Hdist k E)]. replace (ds - 8 =? 0) with false by lia.
  set (o := u64 (rnd k) mod (ds - 8)). assert (O : 0 <= o < ds - 8) by (apply Z.mod_pos_bound; lia). set (m := int_bytes x ++ int_bytes y ++ zdrop 8 st).
  assert (Lr : zlen (zdrop 8 st) = ds - 8) by (rewrite zlen_zdrop by lia; lia).
  assert (Lm : zlen m = ds) by (unfold m; rewrite !zlen_app, Lr; change (zlen (int_bytes x)) with 4; change (zlen (int_bytes y)) with 4; lia).
  unfold m. rewrite app_assoc. set (h := int_bytes x ++ int_bytes y). assert (Lh : zlen h = 8) by reflexivity.
  assert (Sp : zdrop 8 st = ztake o (zdrop 8 st) ++ znth 0 (zdrop 8 st) o :: zdrop (o + 1) (zdrop 8 st)) by (apply zsplit1; lia).
  rewrite Sp, app_assoc. rewrite zwrite_at by (rewrite zlen_app, Lh, zlen_ztake by lia; lia).
  eexists. split; [reflexivity|]. split; [clearbody h; rewrite !zlen_app, zlen_cons, Lh, zlen_ztake, zlen_zdrop, Lr by lia; lia|]. rewrite <- app_assoc. unfold h. rewrite <- !app_assoc. split; [reflexivity|].
  change (zdrop 4 (int_bytes x ++ ?r)) with r. reflexivity.
Qed.
End St.

(** ** the loops of the tests with the static struct *)
Section Loops.
Variables (ds : Z) (rnd : nat -> Z) (dist : nat -> option Z).
Hypothesis Hds : 8 < ds.
Hypothesis Hdist : forall k, dist k <> None.
Context {L : Type}.
Variable add : nat -> L -> list Z -> out L.
Variable get : L -> Z -> out (option (list Z)).
Variable no_mem : nat -> Prop.
Variable needs : Z -> Prop.
Variable repr : L -> list (list Z) -> Prop.
Variable maxlen : Z.
Hypothesis add_some : forall k l xs x, repr l xs -> zlen x = ds -> zlen xs < maxlen -> ~ (no_mem k /\ needs (zlen xs)) -> exists l', add k l x = Ret l' /\ repr l' (xs ++ [x]).
Hypothesis add_none : forall k l xs x, repr l xs -> zlen x = ds -> zlen xs < maxlen -> no_mem k -> needs (zlen xs) -> add k l x = Ret l.
Hypothesis dec : forall k n, {no_mem k /\ needs n} + {~ (no_mem k /\ needs n)}.
Hypothesis get_some : forall l xs i, repr l xs -> 0 <= i < zlen xs -> get l i = Ret (Some (znth [] xs i)).
Variable nothing : out (option (list Z)).
Hypothesis get_none : forall l xs, repr l xs -> zlen xs < maxlen -> needs (zlen xs) -> get l (zlen xs) = nothing.
Variable k0 : nat.
Variable st0 : list Z.
Hypothesis Hst0 : zlen st0 = ds.
Fixpoint stt (n : nat) : list Z :=
  match n with O => st0 | S n => match make_struct ds rnd dist (k0 + n) (2 * Z.of_nat n) (2 * Z.of_nat n + 1) (stt n) with Ret s => s | _ => [] end end.
Definition itm (i : Z) : list Z := stt (S (Z.to_nat i)).
Lemma stt_len n : zlen (stt n) = ds.
Proof using All. induction n as [|n IH]; [exact Hst0|]. cbn [stt]. destruct (make_ok ds rnd dist Hds Hdist (k0 + n) (2 * Z.of_nat n) (2 * Z.of_nat n + 1) (stt n) IH) as (s & -> & E & _). exact E. Qed.
Lemma stt_S n : make_struct ds rnd dist (k0 + n) (2 * Z.of_nat n) (2 * Z.of_nat n + 1) (stt n) = Ret (stt (S n)) /\
  ztake 4 (stt (S n)) = int_bytes (2 * Z.of_nat n) /\ ztake 4 (zdrop 4 (stt (S n))) = int_bytes (2 * Z.of_nat n + 1).
Proof using All. cbn [stt]. destruct (make_ok ds rnd dist Hds Hdist (k0 + n) (2 * Z.of_nat n) (2 * Z.of_nat n + 1) (stt n) (stt_len n)) as (s & -> & _ & E). auto. Qed.
Lemma itm_ints i : 0 <= i -> 2 * i + 1 < 2 ^ 31 -> int_of (ztake 4 (itm i)) = 2 * i /\ int_of (ztake 4 (zdrop 4 (itm i))) = 2 * i + 1.
Proof using All. intros I M. unfold itm. destruct (stt_S (Z.to_nat i)) as (_ & -> & ->). rewrite !Z2Nat.id, !int_of_bytes by lia. auto. Qed.
Lemma add_loop_fill n : forall i l, 2 * (Z.of_nat i + Z.of_nat n) < 2 ^ 31 ->
  add_loop ds rnd dist add n (k0 + i) (2 * Z.of_nat i) (stt i) l = (let* l := fill add itm k0 n (Z.of_nat i) l in Ret (stt (i + n), l)).
Proof using All.
  induction n as [|n IH]; intros i l M; cbn [add_loop fill bind]; [now rewrite Nat.add_0_r|].
  rewrite int_r_ok by lia. cbn [bind]. rewrite int_r_ok by lia. cbn [bind]. destruct (stt_S i) as (-> & _). cbn [bind]. unfold itm at 1. rewrite Nat2Z.id. destruct (add (k0 + i)%nat l (stt (S i))) as [l'| |]; cbn [bind]; try reflexivity.
  specialize (IH (S i) l' ltac:(lia)). replace (k0 + S i)%nat with (S (k0 + i)) in IH by lia. replace (2 * Z.of_nat i + 1 + 1) with (2 * Z.of_nat (S i)) by lia. rewrite IH. replace (Z.of_nat (S i)) with (Z.of_nat i + 1) by lia. now replace (S i + n)%nat with (i + S n)%nat by lia.
Qed.
Lemma check_good n : forall i l xs, repr l xs -> 0 <= i -> i + Z.of_nat n <= zlen xs -> 2 * (i + Z.of_nat n) < 2 ^ 31 -> (forall k, i <= k < i + Z.of_nat n -> znth [] xs k = itm k) ->
  forall m, check_loop get (n + m) (2 * i) l = check_loop get m (2 * (i + Z.of_nat n)) l.
Proof using All.
  induction n as [|n IH]; intros i l xs R I Le M H m; [f_equal; lia|]. cbn [check_loop Nat.add].
  replace (2 * i / 2) with i by (rewrite Z.mul_comm, Z.div_mul; lia). rewrite (get_some l xs i R) by lia. cbn [bind]. rewrite H by lia. rewrite int_r_ok by lia. cbn [bind].
  destruct (itm_ints i) as (-> & ->); [lia|lia|]. rewrite Z.eqb_refl. cbn [negb]. rewrite int_r_ok by lia. cbn [bind]. rewrite Z.eqb_refl. cbn [negb]. replace (2 * i + 1 + 1) with (2 * (i + 1)) by lia. rewrite (IH (i + 1) l xs R) by (try lia; intros; apply H; lia). f_equal. lia.
Qed.
(** what adding and checking yields *)
Lemma loops n l : repr l [] -> Z.of_nat n <= maxlen -> 2 * Z.of_nat n < 2 ^ 31 ->
  exists l' rs, add_loop ds rnd dist add n k0 0 st0 l = Ret (stt n, l') /\ zlen (stt n) = ds /\ repr l' (map itm rs) /\
  ((forall m, 0 <= m < Z.of_nat n -> needs m -> ~ no_mem (k0 + Z.to_nat m)) /\ zlen rs = Z.of_nat n /\ check_loop get n 0 l' = Ret (Some (2 * Z.of_nat n)) \/
   ~ (forall m, 0 <= m < Z.of_nat n -> needs m -> ~ no_mem (k0 + Z.to_nat m)) /\ (check_loop get n 0 l' = Ret None \/ nothing = UB /\ check_loop get n 0 l' = UB \/ (exists x, nothing = Ret (Some x)) \/ nothing = Fuel)).
Proof using All.
  intros R M S2. pose proof (add_loop_fill n 0 l ltac:(lia)) as Ea. cbn [stt Nat.add] in Ea. rewrite Nat.add_0_r in Ea. change (2 * Z.of_nat 0) with 0 in Ea. rewrite Ea. change (Z.of_nat 0) with 0.
  destruct (fill_all add no_mem needs repr (fun x => zlen x = ds) maxlen add_some add_none dec itm (fun i _ => stt_len _) k0 n l R M) as (l' & rs & E & R' & C). rewrite E. cbn [bind]. exists l', rs. split; [reflexivity|]. split; [apply stt_len|]. split; [exact R'|].
  destruct C as [(A & ->)|(j & later & J & A & N & -> & F)].
  - left. split; [exact A|]. split; [apply zlen_zseq|]. pose proof (check_good n 0 l' _ R' ltac:(lia)) as Q. rewrite zlen_map, zlen_zseq in Q. specialize (Q ltac:(lia) ltac:(lia)). rewrite <- (Nat.add_0_r n) at 1. rewrite Q; [reflexivity|].
    intros k K. rewrite (znth_map itm 0 []) by (rewrite zlen_zseq; lia). rewrite zseq_nth by lia. reflexivity.
  - right. split; [exact A|]. assert (Lz : zlen (map itm (zseq 0 (Z.to_nat j))) = j) by (rewrite zlen_map, zlen_zseq; lia).
    pose proof (check_good (Z.to_nat j) 0 l' _ R' ltac:(lia)) as Q. rewrite map_app, zlen_app, Lz in Q. pose proof (zlen_nonneg (map itm later)). specialize (Q ltac:(lia) ltac:(lia)).
    replace n with (Z.to_nat j + S (n - S (Z.to_nat j)))%nat by lia. rewrite Q; [|intros k K; rewrite znth_app1 by lia; rewrite (znth_map itm 0 []) by (rewrite zlen_zseq; lia); rewrite zseq_nth by lia; f_equal; lia].
    cbn [check_loop]. replace (2 * (0 + Z.of_nat (Z.to_nat j)) / 2) with j by (rewrite Z.mul_comm, Z.div_mul; lia). replace (2 * (0 + Z.of_nat (Z.to_nat j))) with (2 * j) by lia. rewrite map_app in R'. destruct later as [|r later].
    + cbn [map] in R'. rewrite app_nil_r in R'. assert (G : get l' j = nothing) by (rewrite <- Lz at 1; apply (get_none l' _ R'); rewrite Lz; [lia|exact N]). rewrite G. destruct nothing as [[x|]| |]; cbn [bind]; eauto 6.
    + cbn [map] in R'. rewrite (get_some l' _ j R') by (rewrite zlen_app, Lz, zlen_cons; pose proof (zlen_nonneg (map itm later)); lia). cbn [bind]. 
      assert (Zj : znth [] (map itm (zseq 0 (Z.to_nat j)) ++ itm r :: map itm later) j = itm r) by (rewrite <- Lz at 2; apply znth_app_exact). rewrite Zj.
      inversion F as [|? ? Hr _]; subst. destruct (itm_ints r) as (-> & _); [lia|lia|]. rewrite int_r_ok by lia. cbn [bind]. replace (2 * r =? 2 * j) with false by lia. auto.
Qed.
End Loops.

(** ** sblist_test.c *)
Section Single.
Variables (ds : Z) (rnd : nat -> Z) (dist : nat -> option Z) (al : nat -> alloc).
Hypothesis Hds : 8 < ds.
Hypothesis Hdist : forall k, dist k <> None.
Lemma single_ok k st mx bl bt : zlen st = ds -> 1 <= bl < 2 ^ 31 -> 0 <= mx * bt < 2 ^ 30 -> (mx * bt + bl) * ds < 2 ^ 64 ->
  ((forall m, 0 <= m < mx * bt -> (bl | m) -> al (k + Z.to_nat m)%nat <> None) /\ exists st', test_single ds rnd dist al k st mx bl bt = Ret (Some (st', (k + Z.to_nat (mx * bt))%nat)) /\ zlen st' = ds) \/
  (~ (forall m, 0 <= m < mx * bt -> (bl | m) -> al (k + Z.to_nat m)%nat <> None) /\ test_single ds rnd dist al k st mx bl bt = Ret None).
Proof using All.
  intros Hst Hbl Hn Hmax. unfold test_single. rewrite int_r_ok by lia. cbn [bind]. rewrite (u64_id (mx * bt)) by lia. rewrite (u64_id bl) by lia. set (N := mx * bt) in *.
  destruct (sinit ds bl N al ltac:(lia) ltac:(lia) Hmax ltac:(lia)) as (l & -> & R). cbn [bind].
  destruct (loops ds rnd dist Hds Hdist (sadd al) sget (fun k => al k = None) (fun n => (bl | n)) (srepr ds bl N) N) with (nothing := Ret (@None (list Z))) (k0 := k) (st0 := st) (n := Z.to_nat N) (l := l) as (l' & rs & E & Ls & R' & C);
    [apply sadd_some; lia|apply sadd_none; lia|apply (sdec ds bl N al); lia|intros; eapply (sget_some ds bl N al); eauto; lia|intros ? xs ? ? ?; eapply (sget_none ds bl N al); eauto; pose proof (zlen_nonneg xs); try lia; nia|assumption|exact R|lia|lia|].
  rewrite Z2Nat.id in C by lia. rewrite E. cbn [bind].
  destruct C as [(A & Lr & Ec)|(A & [Ec|[(X & _)|[(x & X)|X]]])]; try discriminate X; rewrite Ec; cbn [bind].
  - left. split; [exact A|]. replace (2 * N / 2) with N by (rewrite Z.mul_comm, Z.div_mul; lia).
    rewrite (sget_none ds bl N al ltac:(lia) ltac:(lia) Hmax ltac:(lia) l' _ N R') by (rewrite zlen_map; lia). cbn [bind]. eexists. split; [reflexivity|exact Ls].
  - right. split; [exact A|reflexivity].
Qed.
Lemma add_loop_app {L} (add : nat -> L -> list Z -> out L) a b : forall k o s l, add_loop ds rnd dist add (a + b) k o s l = (let* (s, l) := add_loop ds rnd dist add a k o s l in add_loop ds rnd dist add b (k + a) (o + 2 * Z.of_nat a) s l).
Proof using All.
  induction a as [|a IH]; intros k o s l; cbn [add_loop Nat.add bind]; [f_equal; lia|]. unfold int_r. destruct (int_ok (o + 1)); cbn [bind]; [|reflexivity]. destruct (int_ok (o + 1 + 1)); cbn [bind]; [|reflexivity].
  destruct (make_struct ds rnd dist k o (o + 1) s) as [s'| |]; cbn [bind]; try reflexivity. destruct (add k l s') as [l'| |]; cbn [bind]; try reflexivity. rewrite IH. destruct (add_loop ds rnd dist add a (S k) (o + 1 + 1) s' l') as [[s2 l2]| |]; cbn [bind]; try reflexivity. f_equal; lia.
Qed.
Lemma single_big k st mx bl bt : zlen st = ds -> 1 <= bl < 2 ^ 31 -> mx * bt < 0 \/ 2 ^ 30 <= mx * bt -> (2 ^ 30 + bl) * ds < 2 ^ 64 -> test_single ds rnd dist al k st mx bl bt = UB.
Proof using All.
  intros Hst Hbl Hn Hmax. unfold test_single. destruct (int_r (mx * bt)) as [m| |] eqn:Em; [|reflexivity|unfold int_r in Em; destruct (int_ok _); discriminate].
  assert (m = mx * bt /\ - 2 ^ 31 <= mx * bt < 2 ^ 31) as [-> Hi]. { unfold int_r, int_ok in Em. destruct (_ && _) eqn:Eb; [|discriminate]. injection Em as <-. split; [reflexivity|lia]. }
  cbn [bind]. rewrite (u64_id bl) by lia. set (N := mx * bt) in *. clear Em.
  assert (Hu : 2 ^ 30 <= u64 N) by (destruct Hn; [unfold u64; rewrite <- (Z.mod_add N 1) by lia; rewrite Z.mod_small; lia|rewrite u64_id by lia; lia]).
  destruct (sinit ds bl (2 ^ 30) al ltac:(lia) ltac:(lia) Hmax ltac:(lia)) as (l & -> & R). cbn [bind].
  assert (Hh : exists h, Z.of_nat h = 2 ^ 30 - 1) by (exists (Z.to_nat (2 ^ 30 - 1)); apply Z2Nat.id; lia). destruct Hh as (h & Hh).
  assert (Hs : (h + S (Z.to_nat (u64 N) - S h))%nat = Z.to_nat (u64 N)) by lia. rewrite <- Hs at 1. rewrite add_loop_app.
  destruct (loops ds rnd dist Hds Hdist (sadd al) sget (fun k => al k = None) (fun n => (bl | n)) (srepr ds bl (2 ^ 30)) (2 ^ 30)) with (nothing := Ret (@None (list Z))) (k0 := k) (st0 := st) (n := h) (l := l) as (l' & rs & E & Ls & R' & C);
    [apply sadd_some; lia|apply sadd_none; lia|apply (sdec ds bl (2 ^ 30) al); lia|intros; eapply (sget_some ds bl (2 ^ 30) al); eauto; lia|intros ? xs ? ? ?; eapply (sget_none ds bl (2 ^ 30) al); eauto; pose proof (zlen_nonneg xs); lia|assumption|exact R|lia|lia|].
  rewrite E. cbn [bind add_loop]. rewrite int_r_ok by lia. cbn [bind]. unfold int_r at 1. replace (int_ok (0 + 2 * Z.of_nat h + 1 + 1)) with false by (rewrite Hh; reflexivity). reflexivity.
Qed.
End Single.

Section Each.
Variables (ds : Z) (rnd : nat -> Z) (dist : nat -> option Z) (al : nat -> alloc).
Hypothesis Hds : 8 < ds.
Hypothesis Hdist : forall k, dist k <> None.
Hypothesis Hal : forall k, al k <> None.
Variable mx : Z.
Hypothesis Hmx : 0 <= mx * 10 < 2 ^ 30.
Hypothesis Hsize : (mx * 11 + 1) * ds < 2 ^ 64.
Lemma each_ok f : forall k st r, zlen st = ds -> 1 <= r <= Z.max 1 (mx - 1) -> mx - r <= Z.of_nat f -> (1 <= f)%nat ->
  exists k' st', test_each ds rnd dist al f k st mx r = Ret (Some (st', k')).
Proof using All.
  induction f as [|f IH]; intros k st r Hst Hr Hf F1; [lia|]. cbn [test_each].
  destruct (single_ok ds rnd dist al Hds Hdist k st mx r 10 Hst ltac:(lia) Hmx ltac:(nia)) as [(_ & st' & -> & L)|(N & _)]; [|exfalso; apply N; intros; apply Hal].
  cbn [bind]. rewrite int_r_ok by lia. cbn [bind]. destruct (Z.ltb_spec (r + 1) mx); [|eauto]. apply IH; [exact L|lia|lia|lia].
Qed.
End Each.
(** ** tglist_test.c *)
Section Tgl.
Variables (ds : Z) (rnd : nat -> Z) (dist : nat -> option Z) (al : nat -> talloc (list Z)).
Hypothesis Hds : 8 < ds.
Hypothesis Hdist : forall k, dist k <> None.
Section Run.
Variable N : Z.
Hypothesis HN : 0 <= N.
Hypothesis Hmax : (2 * N + 4) * ds < 2 ^ 64.
Lemma tstep k o st l xs : zlen st = ds -> trepr ds l xs -> 0 <= o < 2 ^ 31 - 2 -> zlen xs < N ->
  (~ (al k = None /\ tneeds (zlen xs)) /\ exists st' l', make_struct ds rnd dist k o (o + 1) st = Ret st' /\ zlen st' = ds /\ int_of (ztake 4 st') = o /\ trepr ds l' (xs ++ [st']) /\ forall n, tadd_loop ds rnd dist al (S n) k o st l = tadd_loop ds rnd dist al n (S k) (o + 2) st' l') \/
  (al k = None /\ tneeds (zlen xs) /\ forall n, tadd_loop ds rnd dist al (S n) k o st l = tadd_loop ds rnd dist al n (S k) (o + 1) st l).
Proof using All.
  intros Hst R O M. destruct (tdec ds N al ltac:(lia) Hmax HN k (zlen xs)) as [(D1 & D2)|D].
  - right. split; [exact D1|]. split; [exact D2|]. apply (trepr_full ds N al ltac:(lia) Hmax HN l xs R) in D2. intros n. cbn [tadd_loop]. rewrite int_r_ok by lia. cbn [bind]. unfold tglist_prepare_addition, tglist_grow_if_needed. rewrite D1, D2, Z.eqb_refl. reflexivity.
  - left. split; [exact D|]. destruct (make_ok ds rnd dist Hds Hdist k o (o + 1) st Hst) as (st' & E & L & T & _). destruct (tadd_one ds N al ltac:(lia) Hmax HN k l xs st' R L M D) as (l' & A & R').
    exists st', l'. split; [exact E|]. split; [exact L|]. split; [rewrite T; apply int_of_bytes; lia|]. split; [exact R'|]. intros n. cbn [tadd_loop]. rewrite int_r_ok by lia. cbn [bind]. unfold tglist_add in A. destruct (tglist_prepare_addition ds (al k) l) as [ok l1]. destruct (negb (ok =? 0)); [|discriminate A].
    rewrite int_r_ok by lia. cbn [bind]. rewrite E. cbn [bind]. rewrite A. cbn [bind]. f_equal. lia.
Qed.
Notation S0 := (zrepeat 0 ds).
Notation sttn := (stt ds rnd dist 0 S0).
Notation itmn := (itm ds rnd dist 0 S0).
Lemma tgood n : forall i l, trepr ds l (map itmn (zseq 0 i)) -> zlen (sttn i) = ds -> Z.of_nat i + Z.of_nat n <= N -> 2 * (Z.of_nat i + Z.of_nat n) < 2 ^ 31 -> (forall m, Z.of_nat i <= m < Z.of_nat i + Z.of_nat n -> tneeds m -> al (Z.to_nat m) <> None) ->
  exists l', trepr ds l' (map itmn (zseq 0 (i + n))) /\ zlen (sttn (i + n)) = ds /\ forall m, tadd_loop ds rnd dist al (n + m) i (2 * Z.of_nat i) (sttn i) l = tadd_loop ds rnd dist al m (i + n) (2 * Z.of_nat (i + n)) (sttn (i + n)) l'.
Proof using All.
  induction n as [|n IH]; intros i l R Hst M M2 A; [exists l; rewrite Nat.add_0_r; auto|].
  assert (Li : zlen (map itmn (zseq 0 i)) = Z.of_nat i) by (rewrite zlen_map, zlen_zseq; reflexivity).
  assert (St : exists l1, trepr ds l1 (map itmn (zseq 0 (S i))) /\ zlen (sttn (S i)) = ds /\ forall m, tadd_loop ds rnd dist al (S m) i (2 * Z.of_nat i) (sttn i) l = tadd_loop ds rnd dist al m (S i) (2 * Z.of_nat (S i)) (sttn (S i)) l1).
  { destruct (tstep i (2 * Z.of_nat i) (sttn i) l _ Hst R ltac:(lia) ltac:(lia)) as [(D & st' & l1 & E & L & _ & R1 & Q)|(D1 & D2 & _)].
    - exists l1. assert (Es : sttn (S i) = st') by (cbn [stt Nat.add]; now rewrite E). split; [|split; [now rewrite Es|]].
      + replace (S i) with (i + 1)%nat by lia. rewrite zseq_app, map_app. cbn [zseq map]. unfold itm at 2. replace (Z.to_nat (0 + Z.of_nat i)) with i by lia. rewrite Es. exact R1.
      + intros m. rewrite Q, Es. f_equal. lia.
    - exfalso. rewrite Li in D2. apply (A (Z.of_nat i)); [lia|exact D2|]. now rewrite Nat2Z.id. }
  destruct St as (l1 & R1 & L1 & Q). destruct (IH (S i) l1 R1 L1 ltac:(lia) ltac:(lia)) as (l' & R' & L' & Q'); [intros m Hm; apply A; lia|]. exists l'. replace (i + S n)%nat with (S i + n)%nat by lia. split; [exact R'|]. split; [exact L'|]. intros m. cbn [Nat.add]. rewrite Q, Q'. reflexivity.
Qed.
Lemma tlater n : forall k o st l xs, zlen st = ds -> trepr ds l xs -> 0 <= o -> o + 2 * Z.of_nat n < 2 ^ 31 -> zlen xs + Z.of_nat n <= N ->
  exists st' l' ys, tadd_loop ds rnd dist al n k o st l = Ret (st', l') /\ trepr ds l' (xs ++ ys) /\ Forall (fun y => o <= int_of (ztake 4 y)) ys.
Proof using All.
  induction n as [|n IH]; intros k o st l xs Hst R O M M2; [exists st, l, []; rewrite app_nil_r; auto|].
  destruct (tstep k o st l xs Hst R ltac:(lia) ltac:(lia)) as [(D & st1 & l1 & E & L & I & R1 & Q)|(D1 & D2 & Q)]; rewrite Q.
  - destruct (IH (S k) (o + 2) st1 l1 _ L R1 ltac:(lia) ltac:(lia)) as (st' & l' & ys & E' & R' & F); [rewrite zlen_app; change (zlen [st1]) with 1; lia|]. exists st', l', (st1 :: ys). split; [exact E'|]. split; [rewrite <- app_assoc in R'; exact R'|]. constructor; [lia|]. eapply Forall_impl; [|exact F]. cbn. intros; lia.
  - destruct (IH (S k) (o + 1) st l _ Hst R ltac:(lia) ltac:(lia) ltac:(lia)) as (st' & l' & ys & E' & R' & F). exists st', l', ys. split; [exact E'|]. split; [exact R'|]. eapply Forall_impl; [|exact F]. cbn. intros; lia.
Qed.
Lemma tfirst n : (forall m, 0 <= m < Z.of_nat n -> tneeds m -> al (Z.to_nat m) <> None) \/
  exists j, 0 <= j < Z.of_nat n /\ al (Z.to_nat j) = None /\ tneeds j /\ forall m, 0 <= m < j -> tneeds m -> al (Z.to_nat m) <> None.
Proof using All.
  induction n as [|n IH]; [left; intros m Hm; lia|]. destruct IH as [H|(j & J & B & B2 & H)]; [|right; exists j; repeat split; auto; lia].
  destruct (tdec ds N al ltac:(lia) Hmax HN n (Z.of_nat n)) as [[D1 D2]|D].
  - right. exists (Z.of_nat n). rewrite Nat2Z.id. split; [lia|]. auto.
  - left. intros m Hm T. destruct (Z.eq_dec m (Z.of_nat n)) as [->|]; [rewrite Nat2Z.id; tauto|apply H; [lia|assumption]].
Qed.
Lemma tcheck n l xs : trepr ds l xs -> Z.of_nat n <= zlen xs -> 2 * Z.of_nat n < 2 ^ 31 -> (forall k, 0 <= k < Z.of_nat n -> znth [] xs k = itmn k) ->
  forall m, check_loop tget (n + m) 0 l = check_loop tget m (2 * Z.of_nat n) l.
Proof using All.
  intros R Le M H m.
  apply (check_good ds rnd dist Hds Hdist (tadd ds al) tget (fun k => al k = None) tneeds (trepr ds) N) with (nothing := @UB (option (list Z))) (k0 := O) (st0 := S0) (n := n) (i := 0) (l := l) (xs := xs);
    [apply tadd_some; lia|apply tadd_none; lia|apply (tdec ds N al); lia|intros; eapply (tget_some ds N al); eauto; lia|intros; eapply (tget_none ds N al); eauto; lia|apply zlen_zrepeat; lia|exact R|lia|lia|lia|exact H].
Qed.
End Run.
Lemma tgl_ok mx : 0 <= mx < 2 ^ 30 -> (2 * mx + 4) * ds < 2 ^ 64 ->
  ((forall m, 0 <= m < mx -> tneeds m -> al (Z.to_nat m) <> None) /\ tglist_test ds rnd dist al mx = Ret true) \/
  (~ (forall m, 0 <= m < mx -> tneeds m -> al (Z.to_nat m) <> None) /\ (tglist_test ds rnd dist al mx = Ret false \/ tglist_test ds rnd dist al mx = UB)).
Proof using All.
  intros Hn Hmax. unfold tglist_test. rewrite u64_id by lia. assert (Hz : zlen (zrepeat 0 ds) = ds) by (apply zlen_zrepeat; lia). assert (HN : 0 <= mx) by lia.
  pose proof (fun n => tgood mx HN Hmax n 0 tglist_init (tinit ds mx al ltac:(lia) Hmax HN) Hz) as G. change (Z.of_nat 0) with 0 in G. cbn [stt Nat.add] in G.
  destruct (tfirst mx HN Hmax (Z.to_nat mx)) as [A|(j & J & B & B2 & A)]; rewrite Z2Nat.id in * by lia.
  - left. split; [exact A|]. destruct (G (Z.to_nat mx)) as (l' & R & _ & Q); [lia|lia|intros m Hm; apply A; lia|]. change (2 * 0) with 0 in Q. rewrite <- (Nat.add_0_r (Z.to_nat mx)) at 1. rewrite Q. cbn [tadd_loop bind].
    rewrite <- (Nat.add_0_r (Z.to_nat mx)). rewrite (tcheck mx HN Hmax _ _ _ R); [reflexivity|rewrite zlen_map, zlen_zseq; lia|lia|]. intros k K. rewrite (znth_map _ 0 []) by (rewrite zlen_zseq; lia). rewrite zseq_nth by lia. reflexivity.
  - right. split; [intros X; exact (X j J B2 B)|]. destruct (G (Z.to_nat j)) as (l1 & R1 & L1 & Q); [lia|lia|intros m Hm; apply A; lia|]. change (2 * 0) with 0 in Q.
    replace (Z.to_nat mx) with (Z.to_nat j + S (Z.to_nat mx - S (Z.to_nat j)))%nat by lia. rewrite Q.
    assert (Lj : zlen (map (itm ds rnd dist 0 (zrepeat 0 ds)) (zseq 0 (Z.to_nat j))) = j) by (rewrite zlen_map, zlen_zseq; lia).
    destruct (tstep mx HN Hmax (Z.to_nat j) (2 * Z.of_nat (Z.to_nat j)) _ _ _ L1 R1 ltac:(lia) ltac:(lia)) as [(D & _)|(_ & _ & Q1)]; [exfalso; apply D; rewrite Lj; auto|]. rewrite Q1.
    destruct (tlater mx HN Hmax (Z.to_nat mx - S (Z.to_nat j)) (S (Z.to_nat j)) (2 * Z.of_nat (Z.to_nat j) + 1) _ _ _ L1 R1 ltac:(lia) ltac:(lia) ltac:(lia)) as (st' & l' & ys & E & R' & F). rewrite E. cbn [bind].
    rewrite (tcheck mx HN Hmax _ _ _ R'); [|rewrite zlen_app; pose proof (zlen_nonneg ys); lia|lia|intros k K; rewrite znth_app1 by lia; rewrite (znth_map _ 0 []) by (rewrite zlen_zseq; lia); rewrite zseq_nth by lia; reflexivity].
    cbn [check_loop]. rewrite Z2Nat.id by lia. replace (2 * j / 2) with j by (rewrite Z.mul_comm, Z.div_mul; lia). destruct ys as [|y ys].
    + rewrite app_nil_r in R'. assert (Eg : tget l' j = UB) by (rewrite <- Lj at 1; apply (tget_none ds mx al ltac:(lia) Hmax HN l' _ R'); rewrite Lj; exact B2). rewrite Eg. cbn [bind]. auto.
    + rewrite (tget_some ds mx al ltac:(lia) Hmax HN l' _ j R') by (rewrite zlen_app, zlen_cons; pose proof (zlen_nonneg ys); lia). cbn [bind].
      assert (Zj : znth [] (map (itm ds rnd dist 0 (zrepeat 0 ds)) (zseq 0 (Z.to_nat j)) ++ y :: ys) j = y) by (rewrite <- Lj at 2; apply znth_app_exact). rewrite Zj.
      inversion F as [|? ? Hy _]; subst. rewrite int_r_ok by lia. cbn [bind]. destruct (Z.eqb_spec (int_of (ztake 4 y)) (2 * j)); [exfalso; lia|]. cbn [negb bind]. auto.
Qed.
Lemma tgl_big mx : mx < 0 \/ 2 ^ 30 <= mx -> - 2 ^ 31 <= mx < 2 ^ 31 -> (2 * 2 ^ 30 + 4) * ds < 2 ^ 64 -> (forall k, al k <> None) -> tglist_test ds rnd dist al mx = UB.
Proof using All.
  intros Hm Hi Hmax A. unfold tglist_test. assert (Hz : zlen (zrepeat 0 ds) = ds) by (apply zlen_zrepeat; lia). assert (HN : 0 <= 2 ^ 30) by lia.
  pose proof (fun n => tgood (2 ^ 30) HN Hmax n 0 tglist_init (tinit ds (2 ^ 30) al ltac:(lia) Hmax HN) Hz) as G. change (Z.of_nat 0) with 0 in G. cbn [stt Nat.add] in G.
  assert (Hu : 2 ^ 30 <= u64 mx) by (destruct Hm; [unfold u64; rewrite <- (Z.mod_add mx 1) by lia; rewrite Z.mod_small; lia|rewrite u64_id by lia; lia]).
  assert (Hh : exists h, Z.of_nat h = 2 ^ 30 - 1) by (exists (Z.to_nat (2 ^ 30 - 1)); apply Z2Nat.id; lia). destruct Hh as (h & Hh).
  destruct (G h) as (l1 & R1 & L1 & Q); [lia|lia|intros; apply A|]. change (2 * 0) with 0 in Q. replace (Z.to_nat (u64 mx)) with (h + S (Z.to_nat (u64 mx) - S h))%nat by lia. rewrite Q. cbn [tadd_loop]. rewrite int_r_ok by lia. cbn [bind].
  destruct (make_ok ds rnd dist Hds Hdist h 0 0 _ L1) as (st' & _ & L & _ & _). destruct (tadd_one ds (2 ^ 30) al ltac:(lia) Hmax HN h l1 _ st' R1 L) as (l' & E & _); [rewrite zlen_map, zlen_zseq; lia|intros [X _]; exact (A _ X)|].
  unfold tglist_add in E. destruct (tglist_prepare_addition ds (al h) l1) as [ok l2]. destruct (negb (ok =? 0)); [|discriminate E]. unfold int_r at 1. replace (int_ok (2 * Z.of_nat h + 1 + 1)) with false by (rewrite Hh; reflexivity). reflexivity.
Qed.
End Tgl.
(** ** sptrlist_test.c *)
Lemma word_of_bytes v : 0 <= v < 2 ^ 64 -> word_of (word_bytes v) = v.
Proof.
  intros H. unfold word_of, word_bytes, int_bytes. cbv [app znth Z.to_nat Pos.to_nat Pos.iter_op Nat.add nth].
  replace (v / 2 ^ 32 / 256) with (v / 256 / 2 ^ 32) by (rewrite !Z.div_div by lia; f_equal; lia). Z.div_mod_to_equations. lia.
Qed.
Section Sp.
Variable al : nat -> alloc.
Lemma ptr_fill k0 n : forall i l, Z.of_nat i + Z.of_nat n + 1 < 2 ^ 31 ->
  ptr_add_loop al n (k0 + i) (Z.of_nat i + 1) l = fill (sadd al) (fun i => word_bytes (i + 1)) k0 n (Z.of_nat i) l.
Proof.
  induction n as [|n IH]; intros i l M; cbn [ptr_add_loop fill]; [reflexivity|]. rewrite Nat2Z.id, u64_id by lia. destruct (sadd al (k0 + i) l _) as [l'| |]; cbn [bind]; try reflexivity.
  rewrite int_r_ok by lia. cbn [bind]. specialize (IH (S i) l' ltac:(lia)). replace (k0 + S i)%nat with (S (k0 + i)) in IH by lia. replace (Z.of_nat (S i)) with (Z.of_nat i + 1) in IH by lia. exact IH.
Qed.
Section Check.
Variable N bl : Z.
Hypothesis Hbl : 1 <= bl.
Hypothesis Hmax : (N + bl) * 8 < 2 ^ 64.
Hypothesis HN : 0 <= N.
Lemma ptr_check_good n : forall i l xs, srepr 8 bl N l xs -> 0 <= i -> i + Z.of_nat n <= zlen xs -> i + Z.of_nat n < 2 ^ 31 -> (forall k, i <= k < i + Z.of_nat n -> znth [] xs k = word_bytes (k + 1)) ->
  forall m, ptr_check_loop (n + m) i l = ptr_check_loop m (i + Z.of_nat n) l.
Proof using All.
  induction n as [|n IH]; intros i l xs R I Le M H m; [f_equal; lia|]. cbn [ptr_check_loop Nat.add].
  rewrite (sget_some 8 bl N al ltac:(lia) Hbl Hmax HN l xs i R) by lia. cbn [bind]. rewrite int_r_ok by lia. cbn [bind]. rewrite H by lia. rewrite word_of_bytes, u64_id, Z.eqb_refl by lia. rewrite (IH (i + 1) l xs R) by (try lia; intros; apply H; lia). f_equal. lia.
Qed.
End Check.
(** one round *)
Definition ptr_round (k : nat) (round : Z) : out bool :=
  let* m := int_r (round * 10) in
  let n := Z.to_nat (u64 m) in
  let* l := sblist_init 8 (u64 round) in
  let* l := ptr_add_loop al n k 1 l in
  ptr_check_loop n 0 l.
Lemma ptr_round_ok k r : 1 <= r -> r * 10 < 2 ^ 31 - 1 ->
  ((forall m, 0 <= m < r * 10 -> (r | m) -> al (k + Z.to_nat m)%nat <> None) /\ ptr_round k r = Ret true) \/
  (~ (forall m, 0 <= m < r * 10 -> (r | m) -> al (k + Z.to_nat m)%nat <> None) /\ (ptr_round k r = Ret false \/ ptr_round k r = UB)).
Proof.
  intros R1 R2. unfold ptr_round. rewrite int_r_ok by lia. cbn [bind]. rewrite !u64_id by lia. set (N := r * 10) in *. assert (Hmax : (N + r) * 8 < 2 ^ 64) by lia.
  destruct (sinit 8 r N al ltac:(lia) ltac:(lia) Hmax ltac:(lia)) as (l & -> & R). cbn [bind].
  pose proof (ptr_fill k (Z.to_nat N) 0 l ltac:(lia)) as Ea. rewrite Nat.add_0_r in Ea. change (Z.of_nat 0 + 1) with 1 in Ea. change (Z.of_nat 0) with 0 in Ea. rewrite Ea.
  destruct (fill_all (sadd al) (fun k => al k = None) (fun n => (r | n)) (srepr 8 r N) (fun x => zlen x = 8) N) with (itm := fun i => word_bytes (i + 1)) (k0 := k) (n := Z.to_nat N) (l := l) as (l' & rs & E & R' & C);
    [apply sadd_some; lia|apply sadd_none; lia|apply (sdec 8 r N al); lia|reflexivity|exact R|lia|]. rewrite E. cbn [bind].
  pose proof (fun n => ptr_check_good N r ltac:(lia) Hmax ltac:(lia) n 0 l' _ R' ltac:(lia)) as Q. rewrite zlen_map in Q.
  destruct C as [(A & ->)|(j & later & J & A & Nj & -> & F)].
  - left. split; [unfold all_mem in A; rewrite Z2Nat.id in A by lia; exact A|]. rewrite zlen_zseq in Q. rewrite <- (Nat.add_0_r (Z.to_nat N)). rewrite (Q (Z.to_nat N)) by (try lia; intros q Hq; rewrite (znth_map _ 0 []) by (rewrite zlen_zseq; lia); rewrite zseq_nth by lia; f_equal; lia). reflexivity.
  - right. split; [unfold all_mem in A; rewrite Z2Nat.id in A by lia; exact A|]. rewrite Z2Nat.id in J by lia. rewrite zlen_app, zlen_zseq in Q. pose proof (zlen_nonneg later) as Lp.
    replace (Z.to_nat N) with (Z.to_nat j + S (Z.to_nat N - S (Z.to_nat j)))%nat by lia. rewrite (Q (Z.to_nat j)); [|lia|lia|].
    2:{ intros q Hq. rewrite (znth_map _ 0 []) by (rewrite zlen_app, zlen_zseq; lia). rewrite znth_app1 by (rewrite zlen_zseq; lia). rewrite zseq_nth by lia. reflexivity. }
    cbn [ptr_check_loop]. replace (0 + Z.of_nat (Z.to_nat j)) with j by lia. destruct later as [|q later].
    + rewrite (sget_none 8 r N al ltac:(lia) ltac:(lia) Hmax ltac:(lia) l' _ j R') by (rewrite zlen_map, zlen_app, zlen_zseq, zlen_nil; lia). cbn [bind]. now right.
    + rewrite (sget_some 8 r N al ltac:(lia) ltac:(lia) Hmax ltac:(lia) l' _ j R') by (rewrite zlen_map, zlen_app, zlen_zseq, zlen_cons; pose proof (zlen_nonneg later); lia). cbn [bind].
      rewrite (znth_map _ 0 []) by (rewrite zlen_app, zlen_zseq, zlen_cons; pose proof (zlen_nonneg later); lia). rewrite znth_app2 by (rewrite zlen_zseq; lia). rewrite zlen_zseq. replace (j - Z.of_nat (Z.to_nat j)) with 0 by lia. rewrite znth_cons0.
      inversion F as [|? ? Hq _]; subst. rewrite int_r_ok by lia. cbn [bind]. rewrite word_of_bytes, u64_id by lia. replace (q + 1 =? j + 1) with false by lia. now left.
Qed.
Definition sptr_mem (k : nat) (round last : Z) : Prop :=
  forall r m, round <= r < Z.max (round + 1) last -> 0 <= m < r * 10 -> (r | m) -> al (k + Z.to_nat (5 * (r * (r - 1) - round * (round - 1)) + m))%nat <> None.
Lemma sptr_ok f : forall k r last, 1 <= r -> last <= 2 ^ 27 -> r <= 2 ^ 27 -> last - r <= Z.of_nat f -> (1 <= f)%nat ->
  (sptr_mem k r last /\ sptrlist_test al f k r last = Ret true) \/
  (~ sptr_mem k r last /\ (sptrlist_test al f k r last = Ret false \/ sptrlist_test al f k r last = UB)).
Proof.
  induction f as [|f IH]; intros k r last R1 L1 R2 Hf F1; [lia|].
  assert (U : sptrlist_test al (S f) k r last = (let* c := ptr_round k r in if negb c then Ret false else let* round := int_r (r + 1) in if round <? last then sptrlist_test al f (k + Z.to_nat (r * 10))%nat round last else Ret true)).
  { cbn [sptrlist_test]. unfold ptr_round. rewrite int_r_ok by lia. cbn [bind]. rewrite (u64_id (r * 10)) by lia. destruct (sblist_init 8 (u64 r)) as [l| |]; cbn [bind]; try reflexivity. destruct (ptr_add_loop al _ k 1 l); reflexivity. }
  rewrite U. destruct (ptr_round_ok k r R1 ltac:(lia)) as [(A & ->)|(A & B)].
  - cbn [bind negb]. rewrite int_r_ok by lia. cbn [bind]. destruct (Z.ltb_spec (r + 1) last) as [Lt|Ge].
    + destruct (IH (k + Z.to_nat (r * 10))%nat (r + 1) last ltac:(lia) L1 ltac:(lia) ltac:(lia) ltac:(lia)) as [(M & ->)|(M & B)].
      * left. split; [|reflexivity]. intros q m Hq Hm D. destruct (Z.eq_dec q r) as [->|Nq].
        -- replace (5 * (r * (r - 1) - r * (r - 1)) + m) with m by lia. apply A; [lia|exact D].
        -- specialize (M q m ltac:(lia) Hm D). replace (k + Z.to_nat (5 * (q * (q - 1) - r * (r - 1)) + m))%nat with (k + Z.to_nat (r * 10) + Z.to_nat (5 * (q * (q - 1) - (r + 1) * (r + 1 - 1)) + m))%nat; [exact M|]. rewrite <- Nat.add_assoc. f_equal. rewrite <- Z2Nat.inj_add by nia. f_equal. lia.
      * right. split; [|exact B]. intros H. apply M. intros q m Hq Hm D. specialize (H q m ltac:(lia) Hm D). replace (k + Z.to_nat (r * 10) + Z.to_nat (5 * (q * (q - 1) - (r + 1) * (r + 1 - 1)) + m))%nat with (k + Z.to_nat (5 * (q * (q - 1) - r * (r - 1)) + m))%nat; [exact H|]. rewrite <- Nat.add_assoc. f_equal. rewrite <- Z2Nat.inj_add by nia. f_equal. lia.
    + left. split; [|reflexivity]. intros q m Hq Hm D. assert (q = r) by lia. subst q. replace (5 * (r * (r - 1) - r * (r - 1)) + m) with m by lia. apply A; [lia|exact D].
  - right. split.
    + intros H. apply A. intros m Hm D. specialize (H r m ltac:(lia) ltac:(lia) D). replace (5 * (r * (r - 1) - r * (r - 1)) + m) with m in H by lia. exact H.
    + destruct B as [-> | ->]; cbn [bind negb]; auto.
Qed.
End Sp.
