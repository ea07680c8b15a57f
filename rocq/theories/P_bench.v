(** Proofs about the benchmarks. *)
From Coq Require Import Permutation.
From Verif Require Import Base Cstr M_tglist S_tglist D_tglist P_tglist P_tgilist M_bmap S_bmap D_bmap P_bmap P_hbmap M_fini S_fini P_fini S_num P_num M_bench S_bench.

Lemma zlen_upto i : 0 <= i -> zlen (upto i) = i.
Proof. intros H. unfold upto, zlen. rewrite map_length, seq_length. lia. Qed.
Lemma In_upto i j : In j (upto i) <-> 0 <= j < i.
Proof. unfold upto. rewrite in_map_iff. split; [intros (x & <- & Hx); apply in_seq in Hx; lia|]. intros H. exists (Z.to_nat j). rewrite in_seq. split; lia. Qed.
Lemma total_S rnd M n : total rnd M (Datatypes.S n) = total rnd M n + rnd (Z.of_nat n) mod M.
Proof.
  unfold total. replace (Datatypes.S n) with (n + 1)%nat by lia. rewrite seq_app, map_app. cbn [seq map]. rewrite Nat.add_0_l.
  set (l := map _ _). set (x := rnd _ mod M). clearbody l x. induction l as [|a l IH]; cbn [app fold_right]; lia.
Qed.
Lemma total_mono rnd M n k : 1 <= M -> total rnd M n <= total rnd M (n + k).
Proof. intros HM. induction k as [|k IH]; [rewrite Nat.add_0_r; lia|]. rewrite <- plus_n_Sm, total_S. pose proof (Z.mod_pos_bound (rnd (Z.of_nat (n + k))) M ltac:(lia)). lia. Qed.
Lemma total_pos rnd M n : 1 <= M -> 0 <= total rnd M n.
Proof. intros HM. apply (total_mono rnd M 0 n HM). Qed.

(** ---------- the loops, over any map ---------- *)
Section G.
Context {K S : Type}.
Variable cmp : K -> K -> Z.
Hypothesis HE : forall k k', cmp k k' = 0 <-> k = k'.
Variable R : Z -> S -> fmap K Z -> Prop.
Variable ins : Z -> S -> K -> Z -> out S.
Variable contains : S -> K -> out bool.
Variable get : S -> K -> out (option Z).
Variable key : Z -> K.
Variable N : Z.
Hypothesis HN : 0 <= N < 2 ^ 31.
Hypothesis Hkey : forall i j, 0 <= i < N -> 0 <= j < N -> key i = key j -> i = j.
Hypothesis Hins : forall n i s m dom, 0 <= n -> 0 <= i < N -> R (n + 1) s m -> m (key i) = None -> (forall k, m k <> None -> In k dom) -> zlen dom < 2 ^ 31 ->
  exists s', ins i s (key i) i = Ret s' /\ R n s' (fset cmp m (key i) i).
Hypothesis Hcon : forall n s m k v, R n s m -> m k = Some v -> contains s k = Ret true.
Hypothesis Hget : forall n s m k, R n s m -> get s k = Ret (m k).

Definition filled (i : Z) (m : fmap K Z) : Prop := forall k v, m k = Some v <-> 0 <= v < i /\ k = key v.
Lemma filled_fset i m : 0 <= i < N -> filled i m -> filled (i + 1) (fset cmp m (key i) i).
Proof using All.
  intros Hi HF k v. unfold fset. destruct (cmp (key i) k =? 0) eqn:E.
  - apply Z.eqb_eq, HE in E. subst k. split; [intros H; injection H as <-; split; [lia|reflexivity]|]. intros [H1 H2]. apply Hkey in H2; [now subst|lia|lia].
  - apply Z.eqb_neq in E. rewrite (HF k v). split; [intros [H1 H2]; split; [lia|exact H2]|]. intros [H1 H2]. split; [|exact H2].
    destruct (Z.eq_dec v i) as [->|]; [|lia]. exfalso. apply E, HE. now symmetry.
Qed.
Lemma filled_dom i m : 0 <= i -> filled i m -> forall k, m k <> None -> In k (map key (upto i)).
Proof using All. intros Hi HF k Hk. destruct (m k) as [v|] eqn:E; [|congruence]. apply HF in E as [H1 ->]. apply in_map. now apply In_upto. Qed.
Lemma filled_none i m : 0 <= i < N -> filled i m -> m (key i) = None.
Proof using All. intros Hi HF. destruct (m (key i)) as [v|] eqn:E; [|reflexivity]. apply HF in E as [H1 H2]. apply Hkey in H2; lia. Qed.
Lemma fill_ok q n : forall i s m, 0 <= q -> 0 <= i -> i + Z.of_nat n = N -> R (Z.of_nat n + q) s m -> filled i m ->
  exists s' m', fill ins key n i s = Ret s' /\ R q s' m' /\ filled N m'.
Proof using All.
  induction n as [|n IH]; intros i s m Hq Hi HS HR HF; cbn [fill].
  - exists s, m. replace N with i by lia. auto.
  - destruct (Hins (Z.of_nat n + q) i s m (map key (upto i))) as (s' & -> & HR'); [lia|lia|now replace (Z.of_nat n + q + 1) with (Z.of_nat (Datatypes.S n) + q) by lia|apply filled_none; [lia|exact HF]|apply filled_dom; [lia|exact HF]|unfold zlen in *; rewrite map_length; fold (zlen (upto i)); rewrite zlen_upto; lia|].
    cbn [bind]. apply (IH (i + 1) s' (fset cmp m (key i) i)); auto; [lia|lia|]. apply filled_fset; [lia|exact HF].
Qed.
Lemma check_ok q n : forall i s m, 0 <= i -> i + Z.of_nat n <= N -> R q s m -> filled N m -> check contains key n i s = Ret true.
Proof using All.
  induction n as [|n IH]; intros i s m Hi HS HR HF; cbn [check]; [reflexivity|].
  rewrite (Hcon q s m (key i) i HR) by (apply HF; split; [lia|reflexivity]). cbn [bind]. apply (IH (i + 1) s m); auto; lia.
Qed.
Lemma seek_ok rnd q s m n : forall j, 1 <= N -> (forall k, 0 <= rnd k) -> R q s m -> filled N m -> total rnd N j < 2 ^ 31 ->
  seek get key rnd N n (Z.of_nat j) s (total rnd N j) = if total rnd N (j + n) <? 2 ^ 31 then Ret (total rnd N (j + n)) else UB.
Proof using All.
  induction n as [|n IH]; intros j H1 Hr HR HF HT; cbn [seek].
  - rewrite Nat.add_0_r. now replace (total rnd N j <? 2 ^ 31) with true by lia.
  - rewrite Z.rem_mod_nonneg by (try apply Hr; lia). pose proof (Z.mod_pos_bound (rnd (Z.of_nat j)) N ltac:(lia)) as Hm.
    rewrite (Hget q s m _ HR). cbn [bind]. rewrite (proj2 (HF (key (rnd (Z.of_nat j) mod N)) (rnd (Z.of_nat j) mod N))) by (split; [lia|reflexivity]).
    rewrite <- total_S. pose proof (total_pos rnd N (Datatypes.S j) H1) as Hp. replace (- 2 ^ 31 <=? total rnd N (Datatypes.S j)) with true by lia. cbn [andb].
    replace (j + Datatypes.S n)%nat with (Datatypes.S j + n)%nat by lia. destruct (total rnd N (Datatypes.S j) <? 2 ^ 31) eqn:E.
    + rewrite <- IH by (auto; lia). f_equal. lia.
    + pose proof (total_mono rnd N (Datatypes.S j) n H1). now replace (total rnd N (Datatypes.S j + n) <? 2 ^ 31) with false by lia.
Qed.
Lemma core rnd q n s0 : 0 <= q -> 1 <= N -> (forall k, 0 <= rnd k) -> R (N + q) s0 fempty ->
  exists s m, fill ins key (Z.to_nat N) 0 s0 = Ret s /\ R q s m /\ filled N m /\
    (forall q' s' m', R q' s' m' -> filled N m' -> check contains key (Z.to_nat N) 0 s' = Ret true /\
       seek get key rnd N n 0 s' 0 = if total rnd N n <? 2 ^ 31 then Ret (total rnd N n) else UB).
Proof using All.
  intros Hq H1 Hr HR. destruct (fill_ok q (Z.to_nat N) 0 s0 fempty) as (s & m & E & HR' & HF); [lia|lia|lia|now replace (Z.of_nat (Z.to_nat N)) with N by lia|intros k v; unfold fempty; split; [discriminate|lia]|].
  exists s, m. split; [exact E|]. split; [exact HR'|]. split; [exact HF|]. intros q' s' m' HR2 HF2. split; [apply (check_ok q' (Z.to_nat N) 0 s' m'); auto; lia|].
  apply (seek_ok rnd q' s' m' n 0%nat H1 Hr HR2 HF2). reflexivity.
Qed.
End G.

(** the freed keys *)
Lemma enum_keys {K} (cmp : K -> K -> Z) (key : Z -> K) N m kv : (forall k k', cmp k k' = 0 <-> k = k') -> 0 <= N ->
  (forall i j, 0 <= i < N -> 0 <= j < N -> key i = key j -> i = j) -> filled key N m -> enumerates cmp m kv -> Permutation (map fst kv) (map key (upto N)).
Proof.
  intros HE HN Hkey HF (E1 & E2 & E3). apply NoDup_Permutation.
  - clear -E2 HE. induction E2 as [|p l HA HP IH]; cbn [map]; constructor; [|exact IH]. rewrite in_map_iff. intros (q & Eq & Hq). apply (proj1 (Forall_forall _ _) HA) in Hq. apply Hq, HE. now symmetry.
  - assert (HX : forall l, NoDup l -> (forall i, In i l -> 0 <= i < N) -> NoDup (map key l)).
    { intros l HD. induction HD as [|x l Hx HD IH]; intros Hl; cbn [map]; constructor.
      - rewrite in_map_iff. intros (y & Ey & Hy). apply Hkey in Ey; [now subst|apply Hl; now right|apply Hl; now left].
      - apply IH. intros i Hi. apply Hl. now right. }
    apply HX; [|intros i Hi; exact (proj1 (In_upto N i) Hi)]. unfold upto. apply FinFun.Injective_map_NoDup; [intros a b; lia|apply seq_NoDup].
  - intros k. split.
    + intros Hk. apply in_map_iff in Hk as (p & <- & Hp). apply (proj1 (Forall_forall _ _) E1) in Hp. cbn in Hp. apply HF in Hp as [H1 ->]. apply in_map. now apply In_upto.
    + intros Hk. apply in_map_iff in Hk as (i & <- & Hi). apply In_upto in Hi.
      assert (Hm : m (key i) = Some i) by (apply HF; auto). specialize (E3 (key i) ltac:(congruence)). apply Exists_exists in E3 as (p & Hp & Ep). apply HE in Ep. rewrite Ep. now apply in_map.
Qed.

(** ---------- bmap and hbmap ---------- *)
Section I.
Context {K : Type}.
Variable ksz : Z.
Hypothesis Hksz : 1 <= ksz.
Variable cmp : K -> K -> Z.
Hypothesis HO : total_order cmp.
Hypothesis HE : forall k k', cmp k k' = 0 <-> k = k'.
Variable bs : (K -> Z) -> list K -> option Z.
Hypothesis HB : bsearch_conforming bs.
Notation vo := (vops_tglist Z 4).
Definition HV := vgood_tglist (V := Z) 4 ltac:(lia).
Notation holds := (holds (trepn (V := Z) 4) ksz cmp).

Lemma b_insert n ka va b m k v : 0 <= n -> holds (n + 1) b m -> m k = None -> has_mem ka = true -> has_mem va = true ->
  exists i b', bmap_insert vo ksz cmp bs ka va b k v = Ret (i, b') /\ holds n b' (fset cmp m k v).
Proof using All.
  intros Hn (ks & vs & HR & HM) Hk Ha Hb.
  destruct (binsert_ok vo has_mem (trepn 4) HV ksz Hksz cmp HO bs HB n ka va b ks vs k v Hn HR) as (i & b' & E & [(_ & F & _)|(ks' & vs' & HR' & Hi & Hc & HL)]).
  - unfold boths in F. rewrite Ha, Hb in F. discriminate F.
  - exists i, b'. split; [exact E|]. exists ks', vs'. split; [exact HR'|]. intros k'. unfold fset. now rewrite HL, HM.
Qed.
Lemma b_nocheck n ka va b m k v : 0 <= n -> holds (n + 1) b m -> m k = None -> has_mem ka = true -> has_mem va = true ->
  exists r i b', bmap_insert_nocheck vo ksz cmp ka va b k v = Ret (r, i, b') /\ holds n b' (fset cmp m k v).
Proof using All.
  intros Hn HH Hk Ha Hb. destruct (b_insert n ka va b m k v Hn HH Hk Ha Hb) as (i & b' & E & HH'). destruct HH as (ks & vs & HR & HM).
  revert E. unfold bmap_insert. destruct (find_ok (trepn 4) ksz cmp HO bs HB _ _ _ _ k HR) as [-> _ _|? ? ? ? ? ? _ _ _ _ _ EL]; [|rewrite HM in Hk; congruence].
  cbn [Z.eqb Pos.eqb]. destruct (bmap_insert_nocheck vo ksz cmp ka va b k v) as [[[r ss] b'']| |]; cbn [bind]; try discriminate. intros E. injection E as <- <-. exists r, ss, b''. auto.
Qed.
Lemma b_contains n b m k v : holds n b m -> m k = Some v -> Ret (bmap_contains cmp bs b k) = Ret true.
Proof using All. intros (ks & vs & HR & HM) Hk. f_equal. apply (contains_ok (trepn 4) ksz cmp HO bs HB n b ks vs k HR). rewrite <- HM. congruence. Qed.
Lemma b_get n b m k : holds n b m -> bmap_get vo cmp bs b k = Ret (m k).
Proof using All. intros (ks & vs & HR & HM). rewrite HM. exact (bget_ok vo has_mem (trepn 4) HV ksz cmp HO bs HB n b ks vs k HR). Qed.

Variable hash : K -> Z.
Hypothesis HH : hash_ok cmp hash.
Notation hinv := (hinv (trepn (V := Z) 4) ksz cmp hash).
Lemma ssorted_NoDup ks : ssorted cmp ks -> NoDup ks.
Proof using All.
  induction ks as [|k ks IH]; intros HS; constructor; destruct HS as [H1 H2]; [|now apply IH]. intros Hin. pose proof (proj1 (Forall_forall _ _) H1 k Hin) as Hc. cbn in Hc.
  rewrite (proj2 (HE k k) eq_refl) in Hc. lia.
Qed.
Lemma bucket_small n h m dom i b : hinv n h m -> (forall k, m k <> None -> In k dom) -> zlen dom < 2 ^ 31 -> 0 <= i < zlen h -> zread h i = Ret b -> bmap_getsize b < 2 ^ 32 - 1.
Proof using All.
  intros HI HD HL Hi Eb. destruct (hi_b _ _ _ _ _ _ _ HI i Hi) as (b0 & ks & vs & E & [B1 B2 B3 B4]). rewrite Eb in E. injection E as <-.
  rewrite (brep_size _ _ _ _ _ _ _ B1). assert (Hl : (length ks <= length dom)%nat); [|unfold zlen in *; lia].
  apply NoDup_incl_length; [apply ssorted_NoDup; apply (br_s _ _ _ _ _ _ _ B1)|]. intros k Hk. apply HD. rewrite B4 by (exact (proj1 (Forall_forall _ _) B3 k Hk)).
  destruct (in_split _ _ Hk) as (p & q & Ek). destruct (vsplit _ _ _ _ _ (br_e _ _ _ _ _ _ _ B1) Ek) as (vp & v & vq & -> & El). subst ks.
  rewrite (lookup_at cmp HO); [discriminate|apply (br_s _ _ _ _ _ _ _ B1)|lia|now apply HE].
Qed.
Lemma h_insert n ka va h m k v dom : 0 <= n -> hinv (n + 1) h m -> m k = None -> has_mem ka = true -> has_mem va = true -> (forall k, m k <> None -> In k dom) -> zlen dom < 2 ^ 31 ->
  exists it h', hbmap_insert vo ksz cmp bs hash ka va h k v = Ret (it, h') /\ hinv n h' (fset cmp m k v).
Proof using All.
  intros Hn HI Hk Ha Hb HD HL.
  destruct (hinsert_ok vo has_mem (trepn 4) HV ksz Hksz cmp HO bs HB hash HH n ka va h m k v Hn HI) as (it & h' & E & [(_ & _ & F)|(_ & HI' & _)]).
  - intros b Eb. eapply bucket_small; eauto. pose proof (hi_nb _ _ _ _ _ _ _ HI) as Hnb. unfold buckindex. pose proof (Z.mod_pos_bound (hash k) (zlen h) ltac:(lia)). lia.
  - unfold boths in F. rewrite Ha, Hb in F. discriminate F.
  - eauto.
Qed.
Lemma h_nocheck n ka va h m k v dom : 0 <= n -> hinv (n + 1) h m -> m k = None -> has_mem ka = true -> has_mem va = true -> (forall k, m k <> None -> In k dom) -> zlen dom < 2 ^ 31 ->
  exists it h', hbmap_insert_nocheck vo ksz cmp hash ka va h k v = Ret (it, h') /\ hinv n h' (fset cmp m k v).
Proof using All.
  intros Hn HI Hk Ha Hb HD HL. destruct (h_insert n ka va h m k v dom Hn HI Hk Ha Hb HD HL) as (it & h' & E & HI'). exists it, h'. split; [|exact HI'].
  unfold hbmap_insert in E. destruct (hfind_ok vo has_mem (trepn 4) HV ksz cmp HO bs HB hash _ _ _ k HI) as (i & Ei & HF). rewrite Ei in E. cbn [bind] in E.
  destruct HF as [? ? ? -> _ _ _ _|? ? ? ? ? ? ? _ _ _ Em _ _ _ _]; [|congruence]. now rewrite Z.eqb_refl in E.
Qed.
Lemma h_contains n h m k v : hinv n h m -> m k = Some v -> hbmap_contains cmp bs hash h k = Ret true.
Proof using All.
  intros HI Hk. unfold hbmap_contains. destruct (hfind_ok vo has_mem (trepn 4) HV ksz cmp HO bs HB hash _ _ _ k HI) as (i & -> & HF). cbn [bind].
  destruct HF as [? ? ? _ Em _ _ _|? ? ? ? ? ? ? _ Hne _ _ _ _ _ _]; [congruence|]. now replace (i =? SIZE_MAX) with false by lia.
Qed.
Lemma h_get n h m k : hinv n h m -> hbmap_get vo cmp bs hash h k = Ret (m k).
Proof using All.
  intros HI. pose proof (hinv_hholds vo has_mem (trepn 4) HV ksz cmp HO bs HB hash HH n h m HI) as (_ & _ & _ & H). apply H.
Qed.
End I.

Lemma hnocheck_len {K V St VA} (vo : vops V St VA) ksz (cmp : K -> K -> Z) hash ka va h k v it h' : hbmap_insert_nocheck vo ksz cmp hash ka va h k v = Ret (it, h') -> zlen h' = zlen h.
Proof.
  unfold hbmap_insert_nocheck. destruct (zread h _) as [b| |]; cbn [bind]; try discriminate. destruct (bmap_insert_nocheck vo ksz cmp ka va b k v) as [[[r s] b']| |]; cbn [bind]; try discriminate.
  destruct (zwrite h _ b') as [h2| |] eqn:E; cbn [bind]; try discriminate. intros H. injection H as _ <-.
  set (i := it_bucket _) in E. clearbody i. destruct (Z_lt_dec i 0); [rewrite zwrite_oob in E by lia; discriminate E|]. destruct (Z_le_dec (zlen h) i); [rewrite zwrite_oob in E by lia; discriminate E|].
  destruct (zsplit_mid h i ltac:(lia)) as (p & x & q & -> & <-). rewrite zwrite_at in E by reflexivity. injection E as <-. now zl.
Qed.
(** ---------- strings ---------- *)
Lemma lex_eq a : forall b, lex a b = 0 <-> a = b.
Proof.
  induction a as [|x a IH]; intros [|y b]; cbn [lex]; try (split; [discriminate|discriminate]); [tauto|].
  destruct (x <? y) eqn:E1; [split; [discriminate|intros H; injection H as -> ->; lia]|]. destruct (y <? x) eqn:E2; [split; [discriminate|intros H; injection H as -> ->; lia]|].
  rewrite IH. split; [intros ->; f_equal; lia|intros H; now injection H].
Qed.
Lemma lex_anti a : forall b, lex b a = - lex a b.
Proof.
  induction a as [|x a IH]; intros [|y b]; cbn [lex]; try reflexivity.
  destruct (x <? y) eqn:E1, (y <? x) eqn:E2; first [apply IH | lia].
Qed.
Lemma lex_trans a : forall b c, lex a b <= 0 -> lex b c <= 0 -> lex a c <= 0.
Proof.
  induction a as [|x a IH]; intros [|y b] [|z c]; cbn [lex]; try lia.
  destruct (x <? y) eqn:E1, (y <? x) eqn:E2, (y <? z) eqn:E3, (z <? y) eqn:E4, (x <? z) eqn:E5, (z <? x) eqn:E6; first [lia | apply IH].
Qed.
Section C.
Variable mag : list Z -> list Z -> Z.
Hypothesis Hmag : forall a b, 0 < mag a b.
Lemma strcmp_le a b : strcmp mag a b <= 0 <-> lex a b <= 0.
Proof using All. unfold strcmp. specialize (Hmag a b). split; intros; nia. Qed.
Lemma strcmp_lt a b : strcmp mag a b < 0 <-> lex a b < 0.
Proof using All. unfold strcmp. specialize (Hmag a b). split; intros; nia. Qed.
Lemma strcmp_eq a b : strcmp mag a b = 0 <-> a = b.
Proof using All. rewrite <- lex_eq. unfold strcmp. specialize (Hmag a b). split; intros; nia. Qed.
Lemma strcmp_order : total_order (strcmp mag).
Proof using All.
  split.
  - intros x y. rewrite strcmp_lt. rewrite lex_anti. unfold strcmp. specialize (Hmag y x). split; intros; nia.
  - intros x y z. rewrite !strcmp_le. apply lex_trans.
Qed.
End C.
Lemma x31_rng s : forall h, 0 <= h < 2 ^ 32 -> 0 <= x31 h s < 2 ^ 32.
Proof. induction s as [|c s IH]; intros h Hh; cbn [x31]; [exact Hh|]. apply IH. unfold u32. apply Z.mod_pos_bound. lia. Qed.
Lemma x31_ok mag : (forall a b, 0 < mag a b) -> hash_ok (strcmp mag) x31_hash.
Proof.
  intros Hm. split; [|intros k k' H; apply strcmp_eq in H; [now subst|exact Hm]]. intros [|c s]; cbn [x31_hash]; [lia|]. apply x31_rng. unfold u32. apply Z.mod_pos_bound. lia.
Qed.
Lemma u32_ok : hash_ok Z.sub u32.
Proof. split; [intros k; unfold u32; apply Z.mod_pos_bound; lia|]. intros k k' H. now replace k with k' by lia. Qed.
Lemma decimal_inj i j s : 0 <= i -> 0 <= j -> is_decimal i s -> is_decimal j s -> i = j.
Proof.
  intros Hi Hj (d & (D1 & D2 & _) & ->) (e & (E1 & E2 & _) & E). replace (i <? 0) with false in E by lia. replace (j <? 0) with false in E by lia. cbn [sign_str app] in E.
  assert (d = e); [|subst e; lia]. clear D2 E2. revert e E1 E. induction D1 as [|x d Hx D1 IH]; intros [|y e] E1 E; try discriminate; [reflexivity|]. cbn [map] in E. injection E as E E'.
  apply Forall_cons_iff in E1 as [Hy E1]. f_equal; [|apply IH; auto]. unfold digit_char in E. replace (x <? 10) with true in E by lia. replace (y <? 10) with true in E by lia. lia.
Qed.
Lemma decimal_zero s : is_decimal 0 s -> s = [48].
Proof.
  intros (d & (D1 & D2 & D3) & ->). cbn. destruct D3 as [->|(x & r & -> & Hx)]; [reflexivity|]. exfalso. apply Forall_cons_iff in D1 as [H1 D1]. cbn [pos_value] in D2.
  assert (0 <= pos_value 10 r) by (clear -D1; induction D1 as [|y r Hy D IH]; cbn [pos_value]; [lia|]; pose proof (Z.pow_nonneg 10 (zlen r)); nia).
  pose proof (zlen_nonneg r). pose proof (Z.pow_pos_nonneg 10 (zlen r) ltac:(lia) ltac:(lia)). cbn in D2. nia.
Qed.
Lemma decimal_ge i s : 0 <= i -> is_decimal i s -> 0 <= lex s [48].
Proof.
  intros Hi (d & (D1 & D2 & D3) & ->). replace (i <? 0) with false by lia. cbn [sign_str app].
  assert (exists x r, d = x :: r) as (x & r & ->) by (destruct D3 as [->|(x & r & -> & _)]; eauto). apply Forall_cons_iff in D1 as [Hx _].
  cbn [map lex]. unfold digit_char at 1 2. replace (x <? 10) with true by lia. replace (48 + x <? 48) with false by lia. destruct (48 <? 48 + x); [lia|]. destruct (map _ r); cbn; lia.
Qed.
