(** Proofs about the number of comparisons of the binary searches. *)
From Verif Require Import Base M_sblist S_sblist D_sblist P_sblist M_tglist S_tglist D_tglist D_tgsort P_sort M_bscost S_bscost.
Ltac Zify.zify_post_hook ::= Z.div_mod_to_equations.

(** erasing the log gives the functions of the model *)
Lemma bsearch_log_erase cmp l it fuel : forall base nel,
  bsearch_loop fuel cmp l it base nel = (let* (r, _) := bsearch_log_loop fuel cmp l it base nel in Ret r).
Proof.
  induction fuel as [|fuel IH]; intros; [reflexivity|]. cbn [bsearch_loop bsearch_log_loop].
  destruct (0 <? nel); [|reflexivity]. destruct (cmp_at _ _ _ _) as [c| |]; cbn [bind]; try reflexivity.
  destruct (c <? 0); [|destruct (0 <? c); [|reflexivity]]; rewrite IH; destruct (bsearch_log_loop _ _ _ _ _ _) as [[? ?]| |]; reflexivity.
Qed.

Fixpoint gen (fuel : nat) (get : Z -> out Z) (hi lo : Z) : out (Z * list Z) :=
  match fuel with
  | O => Fuel
  | S fuel =>
      let c := u64 (hi + u64 (lo - hi) / 2) in
      let* r := get c in
      if hi =? lo then Ret (if 0 <? r then u64 (lo + 1) else lo, [c])
      else
        let '(hi, lo) :=
          if r <? 0 then (hi, if c =? 0 then 0 else u64 (c - 1))
          else if 0 <? r then (u64 (c + 1), lo)
          else (c, c) in
        let hi := if lo <? hi then lo else hi in
        let* (p, log) := gen fuel get hi lo in Ret (p, c :: log)
  end.
Lemma sorted_gen cmp l o fuel : forall hi lo, sorted_log_loop fuel cmp l o hi lo = gen fuel (cmp_at cmp l o) hi lo.
Proof.
  induction fuel as [|fuel IH]; intros; [reflexivity|]. cbn [sorted_log_loop gen]. destruct (cmp_at _ _ _ _); cbn [bind]; try reflexivity.
  destruct (hi =? lo); [reflexivity|]. destruct (if _ <? 0 then _ else _) as [h w]. now rewrite IH.
Qed.
Lemma tg_gen A cmp (l : tgl A) o fuel : forall hi lo, tg_log_loop fuel cmp l o hi lo = gen fuel (fun c => let* p := tglist_get l c in Ret (cmp o p)) hi lo.
Proof.
  induction fuel as [|fuel IH]; intros; [reflexivity|]. cbn [tg_log_loop gen]. destruct (tglist_get _ _); cbn [bind]; try reflexivity.
  destruct (hi =? lo); [reflexivity|]. destruct (if _ <? 0 then _ else _) as [h w]. now rewrite IH.
Qed.
Lemma sorted_log_erase cmp l o fuel : forall hi lo,
  sorted_pos_loop fuel cmp l o hi lo = (let* (r, _) := sorted_log_loop fuel cmp l o hi lo in Ret r).
Proof.
  induction fuel as [|fuel IH]; intros; [reflexivity|]. cbn [sorted_pos_loop sorted_log_loop]. destruct (cmp_at _ _ _ _); cbn [bind]; try reflexivity.
  destruct (hi =? lo); [reflexivity|]. destruct (if _ <? 0 then _ else _) as [h w]. rewrite IH. destruct (sorted_log_loop _ _ _ _ _ _) as [[? ?]| |]; reflexivity.
Qed.
Lemma tg_log_erase A cmp (l : tgl A) o fuel : forall hi lo,
  tg_pos_loop fuel cmp l o hi lo = (let* (r, _) := tg_log_loop fuel cmp l o hi lo in Ret r).
Proof.
  induction fuel as [|fuel IH]; intros; [reflexivity|]. cbn [tg_pos_loop tg_log_loop]. destruct (tglist_get _ _); cbn [bind]; try reflexivity.
  destruct (hi =? lo); [reflexivity|]. destruct (if _ <? 0 then _ else _) as [h w]. rewrite IH. destruct (tg_log_loop _ _ _ _ _ _) as [[? ?]| |]; reflexivity.
Qed.
Lemma bsearch_erase cmp l it : sblist_bsearch cmp l it = (let* (r, _) := sblist_bsearch_log cmp l it in Ret r).
Proof. apply bsearch_log_erase. Qed.
Lemma insert_erase al cmp l o : sblist_insert_sorted al cmp l o = (let* (r, _) := sblist_insert_sorted_log al cmp l o in Ret r).
Proof.
  unfold sblist_insert_sorted, sblist_insert_sorted_log. destruct (cnt l =? 0).
  - cbn [bind]. destruct (sblist_insert _ _ _ _) as [[ok ?]| |]; cbn [bind]; try reflexivity. now destruct (ok =? 0).
  - rewrite sorted_log_erase. destruct (sorted_log_loop _ _ _ _ _ _) as [[p log]| |]; cbn [bind]; try reflexivity. destruct (sblist_insert _ _ _ _) as [[ok ?]| |]; cbn [bind]; try reflexivity. now destruct (ok =? 0).
Qed.
Lemma tg_insert_erase A isz al cmp (l : tgl A) o : tglist_insert_sorted isz al cmp l o = (let* (r, _) := tglist_insert_sorted_log isz al cmp l o in Ret r).
Proof.
  unfold tglist_insert_sorted, tglist_insert_sorted_log, tglist_sorted_insert_pos_impl, tg_sorted_pos_log. destruct (tcnt l =? 0).
  - cbn [bind]. destruct (0 =? SIZE_MAX); [reflexivity|]. destruct (tglist_insert _ _ _ _ _) as [[ok ?]| |]; cbn [bind]; try reflexivity. now destruct (ok =? 0).
  - rewrite tg_log_erase. destruct (tg_log_loop _ _ _ _ _ _) as [[p log]| |]; cbn [bind]; try reflexivity. destruct (p =? SIZE_MAX); [reflexivity|]. destruct (tglist_insert _ _ _ _ _) as [[ok ?]| |]; cbn [bind]; try reflexivity. now destruct (ok =? 0).
Qed.

Lemma pow_cons x (log : list Z) : 2 ^ zlen (x :: log) = 2 * 2 ^ zlen log.
Proof. rewrite zlen_cons, Z.pow_add_r by (zpos; lia). lia. Qed.

Lemma gen_cost n get f fuel : n < 2 ^ 64 -> (forall i, 0 <= i < n -> get i = Ret (f i)) -> forall hi lo,
  0 <= hi <= lo -> lo < n -> lo - hi < Z.of_nat fuel ->
  exists p log, gen fuel get hi lo = Ret (p, log) /\ 0 <= p <= n /\ Forall (fun i => 0 <= i < n) log /\ 2 ^ zlen log <= 2 * (lo - hi + 1) /\
    ((forall i, hi <= i <= lo -> 0 < f i) -> lo - hi + 1 < 2 ^ zlen log).
Proof.
  intros Hn HG. induction fuel as [|fuel IH]; intros hi lo Hh Hlo Hf; [lia|]. cbn [gen].
  rewrite (u64_id (lo - hi)) by lia. rewrite u64_id by lia. set (c := hi + (lo - hi) / 2). assert (Hc : hi <= c <= lo) by lia.
  rewrite HG by lia. cbn [bind]. destruct (hi =? lo) eqn:E.
  - do 2 eexists. split; [reflexivity|]. assert (u64 (lo + 1) = lo + 1) as -> by (apply u64_id; lia). split; [destruct (0 <? f c); lia|]. split; [constructor; [lia|constructor]|].
    change (2 ^ zlen [c]) with 2. split; lia.
  - assert (Hcl : c < lo) by lia. destruct (f c <? 0) eqn:R1; [|destruct (0 <? f c) eqn:R2].
    + assert (exists hi' lo', (let lo := if c =? 0 then 0 else u64 (c - 1) in (if lo <? hi then lo else hi, lo)) = (hi', lo') /\ 0 <= hi' <= lo' /\ lo' < n /\ lo' <= c /\ (lo' - hi' + 1 <= c - hi \/ lo' = hi')) as (hi' & lo' & EQ & H1 & H2 & H3 & H4).
      { cbv zeta. do 2 eexists. split; [reflexivity|]. destruct (c =? 0) eqn:C0.
        - assert (hi = 0) by lia. subst hi. cbn. lia.
        - rewrite u64_id by lia. destruct (c - 1 <? hi) eqn:?; lia. }
      cbv zeta in EQ. injection EQ as E1 E2. rewrite E2 in *. rewrite E1. destruct (IH hi' lo') as (p & log & -> & Hp & F & B & _); [lia|lia|lia|].
      cbn [bind]. do 2 eexists. split; [reflexivity|]. split; [exact Hp|]. split; [constructor; [lia|exact F]|]. rewrite pow_cons. split; [lia|]. intros G. specialize (G c Hc). lia.
    + rewrite (u64_id (c + 1)) by lia. replace (lo <? c + 1) with false by lia.
      destruct (IH (c + 1) lo) as (p & log & -> & Hp & F & B & G'); [lia|lia|lia|].
      cbn [bind]. do 2 eexists. split; [reflexivity|]. split; [exact Hp|]. split; [constructor; [lia|exact F]|]. rewrite pow_cons. split; [lia|]. intros G. assert (lo - (c + 1) + 1 < 2 ^ zlen log) by (apply G'; intros i Hi; apply G; lia). lia.
    + replace (c <? c) with false by lia.
      destruct (IH c c) as (p & log & -> & Hp & F & B & _); [lia|lia|lia|].
      cbn [bind]. do 2 eexists. split; [reflexivity|]. split; [exact Hp|]. split; [constructor; [lia|exact F]|]. rewrite pow_cons. split; [lia|]. intros G. specialize (G c Hc). lia.
Qed.

Lemma bsearch_cost n get f cmp l it fuel : n < 2 ^ 64 -> (forall i, cmp_at cmp l it i = get i) -> (forall i, 0 <= i < n -> get i = Ret (f i)) -> forall base nel,
  0 <= base -> 0 <= nel -> base + nel <= n -> nel < Z.of_nat fuel ->
  exists r log, bsearch_log_loop fuel cmp l it base nel = Ret (r, log) /\ NoDup log /\ Forall (fun i => base <= i < base + nel) log /\
    2 ^ zlen log <= 2 * nel + 1 /\ ((forall i, base <= i < base + nel -> f i < 0) -> nel < 2 ^ zlen log).
Proof.
  intros Hn HE HG. induction fuel as [|fuel IH]; intros base nel Hb Hl Hbn Hf; [lia|]. cbn [bsearch_log_loop]. destruct (0 <? nel) eqn:E.
  - rewrite u64_id by lia. rewrite HE, HG by lia. cbn [bind]. set (x := base + nel / 2). assert (base <= x < base + nel) by lia.
    destruct (f x <? 0) eqn:C1; [|destruct (0 <? f x) eqn:C2].
    + destruct (IH base (nel / 2)) as (r & log & -> & ND & F & B & G'); [lia|lia|lia|lia|]. cbn [bind]. do 2 eexists. split; [reflexivity|].
      split; [constructor; [|exact ND]; rewrite Forall_forall in F; intros I; apply F in I; lia|]. split; [constructor; [lia|]; eapply Forall_impl; [|exact F]; cbn; intros; lia|].
      rewrite pow_cons. assert (0 < 2 ^ zlen log) by (apply Z.pow_pos_nonneg; zpos; lia). split.
      * destruct (Z.eq_dec (zlen log) 0) as [Z0|]; [rewrite Z0; lia|]. assert (exists q, 2 ^ zlen log = 2 * q) as [q Q]; [|lia].
        exists (2 ^ (zlen log - 1)). replace (zlen log) with ((zlen log - 1) + 1) at 1 by lia. rewrite Z.pow_add_r by (zpos; lia). lia.
      * intros G. assert (nel / 2 < 2 ^ zlen log) by (apply G'; intros; apply G; lia). lia.
    + rewrite (u64_id (x + 1)) by lia. rewrite u64_id by lia.
      destruct (IH (x + 1) (nel - (nel / 2 + 1))) as (r & log & -> & ND & F & B & G'); [lia|lia|lia|lia|]. cbn [bind]. do 2 eexists. split; [reflexivity|].
      split; [constructor; [|exact ND]; rewrite Forall_forall in F; intros I; apply F in I; lia|]. split; [constructor; [lia|]; eapply Forall_impl; [|exact F]; cbn; intros; lia|].
      rewrite pow_cons. split; [lia|]. intros G. specialize (G x ltac:(lia)). lia.
    + do 2 eexists. split; [reflexivity|]. split; [constructor; [intros []|constructor]|]. split; [constructor; [lia|constructor]|]. change (2 ^ zlen [x]) with 2. split; [lia|]. intros G. specialize (G x ltac:(lia)). lia.
  - assert (nel = 0) by lia. subst. do 2 eexists. split; [reflexivity|]. split; [constructor|]. split; [constructor|]. change (2 ^ zlen (@nil Z)) with 1. lia.
Qed.

Lemma pow_even (log : list Z) : log <> [] -> exists q, 2 ^ zlen log = 2 * q.
Proof. destruct log as [|x log]; [congruence|]. intros _. exists (2 ^ zlen log). apply pow_cons. Qed.

Lemma reach_get cmp itemsize blockitems h l xs it : reachable itemsize blockitems h l xs ->
  cnt l = zlen xs /\ zlen xs < 2 ^ 64 /\ forall i, 0 <= i < zlen xs -> cmp_at cmp l it i = Ret (cmp it (znth [] xs i)).
Proof.
  intros HR. destruct (reachable_inv _ _ _ _ _ HR) as [lim [I [HB [HL Hi]]]]. split; [apply I|]. split.
  - dinv I. zpos. nia.
  - intros i Hi'. eapply cmp_at_ok; eauto.
Qed.
Lemma bsearch_log_reach cmp itemsize blockitems h l xs it : reachable itemsize blockitems h l xs ->
  exists r log, sblist_bsearch_log cmp l it = Ret (r, log) /\ sblist_bsearch cmp l it = Ret r /\
    NoDup log /\ Forall (fun i => 0 <= i < zlen xs) log /\ (xs = [] -> log = []) /\ (xs <> [] -> 2 ^ zlen log <= 2 * zlen xs).
Proof.
  intros HR. destruct (reach_get cmp _ _ _ _ _ it HR) as (HC & HX & HG). unfold sblist_bsearch_log. rewrite bsearch_erase. unfold sblist_bsearch_log. rewrite HC. zpos.
  destruct (bsearch_cost (zlen xs) _ (fun i => cmp it (znth [] xs i)) cmp l it (S (Z.to_nat (zlen xs))) HX (fun i => eq_refl) HG 0 (zlen xs)) as (r & log & E & ND & F & B & _); [lia|lia|lia|lia|].
  rewrite E. cbn [bind]. exists r, log. split; [reflexivity|]. split; [reflexivity|]. split; [exact ND|]. split; [exact F|]. split.
  - intros ->. destruct log as [|x log]; [reflexivity|]. inversion F; subst. change (zlen (@nil item)) with 0 in *. lia.
  - intros NE. destruct log as [|x log]; [destruct xs; [congruence|]; rewrite zlen_cons; change (2 ^ zlen (@nil Z)) with 1; zpos; lia|]. destruct (pow_even (x :: log) ltac:(congruence)) as [q Q]. lia.
Qed.
Lemma bsearch_log_worst cmp itemsize blockitems h l xs it : reachable itemsize blockitems h l xs -> (forall x, In x xs -> cmp it x < 0) ->
  exists log, sblist_bsearch_log cmp l it = Ret (SIZE_MAX, log) /\ zlen xs < 2 ^ zlen log /\ (xs <> [] -> 2 ^ zlen log <= 2 * zlen xs).
Proof.
  intros HR HW. destruct (bsearch_log_reach cmp _ _ _ _ _ it HR) as (r & log & E & E' & _ & F & _ & B). exists log.
  destruct (bsearch_reach cmp _ _ _ _ _ it HR) as (r' & E2 & [[Hr HX]|[-> _]]).
  { pose proof (HW _ (znth_In [] xs r' Hr)). lia. }
  rewrite E' in E2. injection E2 as ->. split; [exact E|]. split; [|exact B].
  destruct (reach_get cmp _ _ _ _ _ it HR) as (HC & HX & HG). unfold sblist_bsearch_log in E. rewrite HC in E. zpos.
  destruct (bsearch_cost (zlen xs) _ (fun i => cmp it (znth [] xs i)) cmp l it (S (Z.to_nat (zlen xs))) HX (fun i => eq_refl) HG 0 (zlen xs)) as (r & log' & E3 & _ & _ & _ & W); [lia|lia|lia|lia|].
  rewrite E in E3. injection E3 as <- <-. apply W. intros i Hi. apply HW, znth_In. lia.
Qed.

Lemma insert_log_reach cmp al itemsize blockitems h l xs o : reachable itemsize blockitems h l xs -> zlen o = itemsize ->
  exists r l' log, sblist_insert_sorted_log al cmp l o = Ret (r, l', log) /\ sblist_insert_sorted al cmp l o = Ret (r, l') /\
    Forall (fun i => 0 <= i < zlen xs) log /\ (xs = [] -> log = []) /\ (xs <> [] -> 2 ^ zlen log <= 2 * zlen xs) /\
    (xs <> [] -> (forall x, In x xs -> 0 < cmp o x) -> zlen xs < 2 ^ zlen log).
Proof.
  intros HR HO. destruct (reach_get cmp _ _ _ _ _ o HR) as (HC & HX & HG). destruct (insert_sorted_reach cmp al _ _ _ _ _ o HR HO) as (r & l' & E & _).
  rewrite insert_erase in E. rewrite insert_erase. destruct (sblist_insert_sorted_log al cmp l o) as [[[r1 l1] log]| |] eqn:E1; try discriminate. cbn [bind] in E |- *. injection E as -> ->.
  exists r, l', log. split; [reflexivity|]. split; [reflexivity|]. unfold sblist_insert_sorted_log in E1. rewrite HC in E1. zpos. destruct (zlen xs =? 0) eqn:Z0.
  - cbn [bind] in E1. assert (log = []) as -> by (destruct (sblist_insert _ _ _ _) as [[ok ?]| |]; cbn [bind] in E1; try discriminate; destruct (ok =? 0); congruence).
    assert (xs = []) as -> by (apply zlen_0; lia). split; [constructor|]. split; [reflexivity|]. split; congruence.
  - rewrite u64_id in E1 by lia. rewrite sorted_gen in E1.
    destruct (gen_cost (zlen xs) _ (fun i => cmp o (znth [] xs i)) (S (Z.to_nat (zlen xs))) HX HG 0 (zlen xs - 1)) as (p & log' & E3 & _ & F & B & W); [lia|lia|lia|].
    rewrite E3 in E1. cbn [bind] in E1. assert (log' = log) as -> by (destruct (sblist_insert _ _ _ _) as [[ok ?]| |]; cbn [bind] in E1; try discriminate; destruct (ok =? 0); congruence).
    split; [exact F|]. split; [intros ->; cbn in Z0; discriminate|]. split; [intros _; lia|]. intros _ G. assert (zlen xs - 1 - 0 + 1 < 2 ^ zlen log) by (apply W; intros i Hi; apply G, znth_In; lia). lia.
Qed.
Lemma tg_log_reach A cmp al isz h (l : tgl A) xs o : treached isz h l xs ->
  exists r l' log, tglist_insert_sorted_log isz al cmp l o = Ret (r, l', log) /\ tglist_insert_sorted isz al cmp l o = Ret (r, l') /\
    Forall (fun i => 0 <= i < zlen xs) log /\ (xs = [] -> log = []) /\ (xs <> [] -> 2 ^ zlen log <= 2 * zlen xs) /\
    (xs <> [] -> (forall x, In x xs -> 0 < cmp o x) -> zlen xs < 2 ^ zlen log).
Proof.
  intros HR. pose proof HR as (Hi & HL & _ & _ & _ & _ & HC & HG). destruct (P_sort.treached_rep _ _ _ _ _ HR) as [T Ln]. assert (HX : zlen xs < 2 ^ 64) by (zpos; nia).
  destruct (P_sort.treached_insert _ _ _ _ _ al cmp o HR) as (r & l' & E & _).
  rewrite tg_insert_erase in E. rewrite tg_insert_erase. destruct (tglist_insert_sorted_log isz al cmp l o) as [[[r1 l1] log]| |] eqn:E1; try discriminate. cbn [bind] in E |- *. injection E as -> ->.
  exists r, l', log. split; [reflexivity|]. split; [reflexivity|]. unfold tglist_insert_sorted_log, tg_sorted_pos_log in E1. rewrite HC in E1. zpos. destruct (zlen xs =? 0) eqn:Z0.
  - cbn [bind] in E1. change (0 =? SIZE_MAX) with false in E1. cbv iota in E1. assert (log = []) as -> by (destruct (tglist_insert _ _ _ _ _) as [[ok ?]| |]; cbn [bind] in E1; try discriminate; destruct (negb (ok =? 0)); congruence).
    assert (xs = []) as -> by (apply zlen_0; lia). split; [constructor|]. split; [reflexivity|]. split; congruence.
  - rewrite u64_id in E1 by lia. rewrite tg_gen in E1.
    destruct (gen_cost (zlen xs) (fun c => let* p := tglist_get l c in Ret (cmp o p)) (fun i => cmp o (znth o xs i)) (S (Z.to_nat (zlen xs))) HX) with (hi := 0) (lo := zlen xs - 1) as (p & log' & E3 & _ & F & B & W); [intros i Hi'; now rewrite (HG i o Hi')|lia|lia|lia|].
    rewrite E3 in E1. cbn [bind] in E1. assert (log' = log) as -> by (destruct (p =? SIZE_MAX); [congruence|]; destruct (tglist_insert _ _ _ _ _) as [[ok ?]| |]; cbn [bind] in E1; try discriminate; destruct (negb (ok =? 0)); congruence).
    split; [exact F|]. split; [intros ->; cbn in Z0; discriminate|]. split; [intros _; lia|]. intros _ G. assert (zlen xs - 1 - 0 + 1 < 2 ^ zlen log) by (apply W; intros i Hi'; apply G, znth_In; lia). lia.
Qed.

(** lower bound *)
Lemma adversary t : forall a m, 0 <= a -> 0 <= m ->
  (forall p, a <= p < a + m -> answer t (key_at p) = p) -> (forall p, a <= p <= a + m -> answer t (key_before p) = -1) ->
  exists p, a <= p <= a + m /\ m < 2 ^ asked t (key_before p).
Proof.
  assert (NN : forall t f, 0 <= asked t f).
  { clear. induction t as [r|i x IHx y IHy z IHz]; intros f; cbn [asked]; [lia|]. specialize (IHx f). specialize (IHy f). specialize (IHz f). destruct (f i <? 0); [lia|]. destruct (0 <? f i); lia. }
  induction t as [r|i x IHx y IHy z IHz]; intros a m Ha Hm H1 H2; cbn [answer asked] in *.
  - exists a. split; [lia|]. destruct (Z.eq_dec m 0) as [->|]; [reflexivity|]. specialize (H1 a ltac:(lia)). specialize (H2 a ltac:(lia)). lia.
  - assert (K1 : forall p, key_before p i <? 0 = (p <=? i)) by (intros; unfold key_before; lia).
    assert (K2 : forall p, 0 <? key_before p i = (i <? p)) by (intros; unfold key_before; lia).
    assert (K3 : forall p, key_at p i <? 0 = (p <? i)) by (intros; unfold key_at; lia).
    assert (K4 : forall p, 0 <? key_at p i = (i <? p)) by (intros; unfold key_at; lia).
    assert (L : forall a' m', a <= a' -> 0 <= m' -> a' + m' <= a + m -> a' + m' <= i -> m <= 2 * m' + 1 -> exists p, a <= p <= a + m /\ m < 2 ^ (1 + (if key_before p i <? 0 then asked x (key_before p) else if 0 <? key_before p i then asked z (key_before p) else asked y (key_before p)))).
    { intros a' m' A1 A2 A3 A4 A5. destruct (IHx a' m') as (p & Hp & B); [lia|lia| | |].
      - intros p Hp. specialize (H1 p ltac:(lia)). rewrite K3 in H1. replace (p <? i) with true in H1 by lia. exact H1.
      - intros p Hp. specialize (H2 p ltac:(lia)). rewrite K1 in H2. replace (p <=? i) with true in H2 by lia. exact H2.
      - exists p. split; [lia|]. rewrite K1. replace (p <=? i) with true by lia. rewrite Z.pow_add_r by (try apply NN; lia). lia. }
    assert (R : forall a' m', a <= a' -> 0 <= m' -> a' + m' <= a + m -> i < a' -> m <= 2 * m' + 1 -> exists p, a <= p <= a + m /\ m < 2 ^ (1 + (if key_before p i <? 0 then asked x (key_before p) else if 0 <? key_before p i then asked z (key_before p) else asked y (key_before p)))).
    { intros a' m' A1 A2 A3 A4 A5. destruct (IHz a' m') as (p & Hp & B); [lia|lia| | |].
      - intros p Hp. specialize (H1 p ltac:(lia)). rewrite K3, K4 in H1. replace (p <? i) with false in H1 by lia. replace (i <? p) with true in H1 by lia. exact H1.
      - intros p Hp. specialize (H2 p ltac:(lia)). rewrite K1, K2 in H2. replace (p <=? i) with false in H2 by lia. replace (i <? p) with true in H2 by lia. exact H2.
      - exists p. split; [lia|]. rewrite K1, K2. replace (p <=? i) with false by lia. replace (i <? p) with true by lia. rewrite Z.pow_add_r by (try apply NN; lia). lia. }
    destruct (Z_lt_le_dec i a); [apply (R a m); lia|]. destruct (Z_le_gt_dec (a + m) i); [apply (L a m); lia|].
    destruct (Z_le_gt_dec m (2 * (i - a) + 1)); [apply (L a (i - a)); lia|apply (R (i + 1) (a + m - 1 - i)); lia].
Qed.
Lemma lower n t : 0 <= n -> correct n t -> exists p, 0 <= p <= n /\ n < 2 ^ asked t (key_before p).
Proof. intros Hn [H1 H2]. destruct (adversary t 0 n) as (p & Hp & B); [lia|lia|exact H1|exact H2|]. exists p. split; [lia|exact B]. Qed.
Fixpoint halving (fuel : nat) (a m : Z) : strategy :=
  match fuel with
  | O => Done (-1)
  | S fuel => if 0 <? m then Look (a + m / 2) (halving fuel a (m / 2)) (Done (a + m / 2)) (halving fuel (a + m / 2 + 1) (m - (m / 2 + 1))) else Done (-1)
  end.
Lemma halving_ok fuel : forall a m, 0 <= m < Z.of_nat fuel ->
  (forall p, a <= p < a + m -> answer (halving fuel a m) (key_at p) = p) /\ (forall p, a <= p <= a + m -> answer (halving fuel a m) (key_before p) = -1).
Proof.
  induction fuel as [|fuel IH]; intros a m Hm; [lia|]. cbn [halving]. destruct (0 <? m) eqn:E; [|split; intros; [lia|reflexivity]]. cbn [answer].
  destruct (IH a (m / 2)) as [A1 A2]; [lia|]. destruct (IH (a + m / 2 + 1) (m - (m / 2 + 1))) as [B1 B2]; [lia|]. split; intros p Hp.
  - destruct (key_at p (a + m / 2) <? 0) eqn:L; [apply A1; unfold key_at in L; lia|]. destruct (0 <? key_at p (a + m / 2)) eqn:G; [apply B1; unfold key_at in G; lia|]. unfold key_at in *. lia.
  - destruct (key_before p (a + m / 2) <? 0) eqn:L; [apply A2; unfold key_before in L; lia|]. destruct (0 <? key_before p (a + m / 2)) eqn:G; [apply B2; unfold key_before in G; lia|]. unfold key_before in *. lia.
Qed.
Lemma halving_correct n : 0 <= n -> correct n (halving (S (Z.to_nat n)) 0 n).
Proof. intros. pose proof (halving_ok (S (Z.to_nat n)) 0 n ltac:(lia)) as H0. rewrite Z.add_0_l in H0. exact H0. Qed.
