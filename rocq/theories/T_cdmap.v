(** C88 for codedup.c with its hbmap: the same report. *)
From Verif Require Import Base Cstr S_fileparser M_spfile S_tglist M_tglist D_tglist S_bmap M_bmap D_bmap P_bmap P_hbmap D_tgsort S_fpuse M_codedup S_codedup P_codedup P_codedup2 P_codedup3 T_cdexact M_cdmap.
From Coq Require Import Permutation.
From Coq Require Sorted.

(** where the list of a key is *)
Fixpoint fidx (p : Z) (m : dmap) (k : Z) : option Z :=
  match m with
  | [] => None
  | (k', _) :: m => if k =? k' then Some p else fidx (p + 1) m k
  end.
Lemma fidx_none m k : forall p, fidx p m k = None <-> dfind k m = None.
Proof. induction m as [|[k' d] m IH]; intros p; cbn [fidx dfind]; [tauto|]. destruct (k =? k'); [split; discriminate|apply IH]. Qed.
Lemma fidx_some m k : forall p d, dfind k m = Some d -> exists a b, m = a ++ (k, d) :: b /\ fidx p m k = Some (p + zlen a) /\ (forall d', dset k d' m = a ++ (k, d') :: b).
Proof.
  induction m as [|[k' d0] m IH]; intros p d; cbn [fidx dfind dset]; [discriminate|]. destruct (k =? k') eqn:E.
  - intros [= ->]. replace k' with k by lia. exists [], m. cbn [app]. change (zlen (@nil (Z * tgl (Z * Z)))) with 0. rewrite Z.add_0_r. auto.
  - intros D. destruct (IH (p + 1) d D) as (a & b & -> & I & S'). exists ((k', d0) :: a), b. cbn [app]. rewrite zlen_cons. split; [reflexivity|]. split; [rewrite I; f_equal; lia|]. intros d'. now rewrite S'.
Qed.
Lemma fidx_in m k : forall p, fidx p m k <> None <-> In k (map fst m).
Proof.
  induction m as [|[k' d] m IH]; intros p; cbn [fidx map fst In]; [tauto|]. destruct (k =? k') eqn:E; [split; intros; [left; lia|discriminate]|]. rewrite IH. split; [tauto|intros [H|H]; [lia|exact H]].
Qed.
Lemma fidx_app m i d k : forall p, fidx p (m ++ [(i, d)]) k = match fidx p m k with Some q => Some q | None => if k =? i then Some (p + zlen m) else None end.
Proof.
  induction m as [|[k' d0] m IH]; intros p; cbn [fidx app].
  - change (zlen (@nil (Z * tgl (Z * Z)))) with 0. now rewrite Z.add_0_r.
  - destruct (k =? k'); [reflexivity|]. rewrite IH, zlen_cons. destruct (fidx _ m k); [reflexivity|]. destruct (k =? i); [f_equal; lia|reflexivity].
Qed.
Lemma fidx_dset m i d k : forall p, fidx p (dset i d m) k = fidx p m k.
Proof. induction m as [|[k' d0] m IH]; intros p; cbn [fidx dset]; [reflexivity|]. destruct (i =? k') eqn:E; cbn [fidx]; [reflexivity|]. destruct (k =? k'); [reflexivity|apply IH]. Qed.

Lemma cmp_order : total_order intcmp.
Proof. unfold intcmp. split; intros; lia. Qed.
Lemma cmp_hash : hash_ok intcmp inthash.
Proof. unfold intcmp, inthash, u32. split; [intros; apply Z.mod_pos_bound; lia|]. intros k k' E. now replace k with k' by lia. Qed.
Definition HV8 := vgood_tglist (V := Z) 8 ltac:(lia).
Notation hinv := (hinv (trepn (V := Z) 8) 4 intcmp inthash).

(** the map with its lists, and room for n more keys out of N *)
Record rel (N n : Z) (m : dmap) (h : hmap) (hp : heap) : Prop := mkRel {
  r_h : hinv n h (fidx 0 m);
  r_p : hp = map snd m;
  r_n : 0 <= n /\ zlen m + n <= N /\ N <= 2 ^ 31 }.

Section S.
Variables (L : list (Z * list Z)) (bl : Z) (junk : Z -> Z * Z) (kj vj : Z -> Z) (bs : (Z -> Z) -> list Z -> option Z).
Hypothesis HB : bsearch_conforming bs.

Lemma rel_mono N n n' m h hp : rel N n m h hp -> 0 <= n' <= n -> rel N n' m h hp.
Proof. intros [A B C] H. split; [apply (hinv_mono vptr has_mem (trepn 8) HV8 4 ltac:(lia) intcmp inthash n); [exact A|exact H]|exact B|lia]. Qed.
Lemma small N n m h hp i b : rel N (n + 1) m h hp -> 0 <= n -> 0 <= i < zlen h -> zread h i = Ret b -> bmap_getsize b < 2 ^ 32 - 1.
Proof.
  intros [HI _ C] Hn Hi Eb. destruct (hi_b _ _ _ _ _ _ _ HI i Hi) as (b0 & ks & vs & E & [B1 B2 B3 B4]). rewrite Eb in E. injection E as <-.
  rewrite (brep_size _ _ _ _ _ _ _ B1). assert (Hl : (length ks <= length (map fst m))%nat); [|rewrite map_length in Hl; unfold zlen in *; lia].
  apply NoDup_incl_length.
  - pose proof (br_s _ _ _ _ _ _ _ B1) as HS. clear - HS. induction ks as [|k ks IH]; constructor; destruct HS as [H1 H2]; [|now apply IH]. intros Hin. pose proof (proj1 (Forall_forall _ _) H1 k Hin) as Hc. unfold intcmp in Hc. lia.
  - intros k Hk. apply (fidx_in m k 0). rewrite B4 by (exact (proj1 (Forall_forall _ _) B3 k Hk)).
    destruct (in_split _ _ Hk) as (p & q & Ek). destruct (vsplit _ _ _ _ _ (br_e _ _ _ _ _ _ _ B1) Ek) as (vp & v & vq & -> & El). subst ks.
    rewrite (lookup_at intcmp cmp_order); [discriminate|apply (br_s _ _ _ _ _ _ _ B1)|lia|unfold intcmp; lia].
Qed.
Lemma rel_find N n m h hp k d : rel N n m h hp -> dfind k m = Some d -> exists it a b, hbmap_find intcmp bs inthash h k = Ret it /\ (it =? SIZE_MAX) = false /\
  hbmap_getval vptr h it = Ret (zlen a) /\ m = a ++ (k, d) :: b /\ hp = map snd a ++ d :: map snd b /\ (forall d', dset k d' m = a ++ (k, d') :: b).
Proof.
  intros [HI HP C] D. destruct (fidx_some m k 0 d D) as (a & b & Em & F & DS). destruct (hfind_ok vptr has_mem (trepn 8) HV8 4 intcmp cmp_order bs HB inthash _ _ _ k HI) as (it & Ei & HF).
  destruct HF as [? ? ? _ E0 _ _ _|b0 p x q vp v vq Eit Hne HL E0 Ec Eb HBk El]; [congruence|]. destruct (hkv vptr has_mem (trepn 8) HV8 4 intcmp inthash _ _ _ _ _ _ _ _ _ _ _ _ Eit HL Eb HBk El) as [_ G].
  rewrite F in E0. injection E0 as E0. exists it, a, b. split; [exact Ei|]. split; [lia|]. split; [rewrite G; f_equal; lia|]. split; [exact Em|]. split; [|exact DS]. rewrite HP, Em, map_app. reflexivity.
Qed.

(** lines 131-143 *)
Lemma hnote_sim N n m h hp i j c m' : rel N (if fidx 0 m i then n else n + 1) m h hp -> 0 <= n -> note junk m i j c = Ret m' ->
  exists h' hp', hnote junk kj vj bs h hp i j c = Ret (h', hp') /\ rel N n m' h' hp' /\ fidx 0 m' i <> None.
Proof.
  intros R Hn. unfold note, hnote. destruct (dfind i m) as [d|] eqn:D.
  - destruct (fidx 0 m i) as [q|] eqn:F; [|apply (fidx_none m i 0) in F; congruence].
    destruct (rel_find _ _ _ _ _ i d R D) as (it & a & b & -> & Ei & G & Em & Ep & DS). cbn [bind]. rewrite Ei, G. cbn [bind]. rewrite Ep, (zread_at (map snd a)) by (rewrite zlen_map; reflexivity). cbn [bind].
    destruct (tglist_insert_sorted 8 (Some junk) sortitem_cmp d (c, j)) as [[r d']| |]; cbn [bind]; try discriminate. intros [= <-].
    rewrite (zwrite_at (map snd a)) by (rewrite zlen_map; reflexivity). cbn [bind]. do 2 eexists. split; [reflexivity|]. split.
    + destruct R as [A B C]. split.
      * eapply hinv_ext; [exact A|]. intros k. apply fidx_dset.
      * rewrite DS, map_app. reflexivity.
      * rewrite DS. rewrite Em in C. rewrite zlen_app, zlen_cons in *. exact C.
    + rewrite fidx_dset. congruence.
  - assert (F : fidx 0 m i = None) by (apply fidx_none; exact D). rewrite F in R. pose proof (r_h _ _ _ _ _ R) as HI. pose proof (r_n _ _ _ _ _ R) as C.
    destruct (hfind_ok vptr has_mem (trepn 8) HV8 4 intcmp cmp_order bs HB inthash _ _ _ i HI) as (it & -> & HF). destruct HF as [? ? ? -> _ _ _ _|? ? ? ? ? ? ? _ _ _ E0 _ _ _ _]; [|congruence].
    cbn [bind]. rewrite Z.eqb_refl. cbn [bind]. rewrite (zread_at hp) by reflexivity. cbn [bind].
    destruct (tglist_insert_sorted 8 (Some junk) sortitem_cmp tglist_init (c, j)) as [[r d']| |]; cbn [bind]; try discriminate. intros [= <-].
    rewrite (zwrite_at hp) by reflexivity. cbn [bind].
    destruct (hinsert_ok vptr has_mem (trepn 8) HV8 4 ltac:(lia) intcmp cmp_order bs HB inthash cmp_hash n (Some kj) (Some vj) h (fidx 0 m) i (zlen hp) Hn HI) as (it & h' & -> & HC).
    { intros b1 Eb. apply (small N n m h hp (buckindex inthash h i)); auto. apply buck_rng. apply (hi_nb _ _ _ _ _ _ _ HI). }
    destruct HC as [(_ & _ & X)|(_ & HI' & _)]; [discriminate X|]. cbn [bind]. do 2 eexists. split; [reflexivity|]. split; [split|].
    + eapply hinv_ext; [exact HI'|]. intros k. rewrite fidx_app. unfold fset, intcmp. rewrite (r_p _ _ _ _ _ R), zlen_map.
      destruct (i - k =? 0) eqn:Ek.
      * replace k with i by lia. now rewrite F, Z.eqb_refl.
      * destruct (fidx 0 m k); [reflexivity|]. now replace (k =? i) with false by lia.
    + rewrite map_app, (r_p _ _ _ _ _ R). reflexivity.
    + rewrite zlen_app. change (zlen [(i, d')]) with 1. lia.
    + rewrite fidx_app, F, Z.eqb_refl. discriminate.
Qed.
Lemma hj_sim N n fuel : forall i j m h hp dc lg m' dc' lg', rel N (if fidx 0 m i then n else n + 1) m h hp -> 0 <= n -> j_loop L bl junk fuel i j m dc lg = Ret (m', dc', lg') ->
  exists h' hp', hj_loop L bl junk kj vj bs fuel i j h hp dc lg = Ret (h', hp', dc', lg') /\ rel N (if fidx 0 m' i then n else n + 1) m' h' hp'.
Proof.
  induction fuel as [|fuel IH]; intros i j m h hp dc lg m' dc' lg' R Hn; cbn [j_loop hj_loop]; [discriminate|].
  destruct (_ <? zlen L); [|intros [= <- <- <-]; eauto].
  destruct (cmp_loop L bl (S fuel) i j 0) as [c| |]; cbn [bind]; try discriminate. destruct (c =? bl); [|now apply IH].
  destruct (ext_loop L (S fuel) i j c) as [e| |]; cbn [bind]; try discriminate.
  destruct (note junk m i j e) as [m1| |] eqn:E; cbn [bind]; try discriminate. intros J.
  destruct (hnote_sim N n m h hp i j e m1 R Hn E) as (h1 & hp1 & -> & R1 & F). cbn [bind]. refine (IH _ _ _ _ _ _ _ _ _ _ _ Hn J). destruct (fidx 0 m1 i); [exact R1|congruence].
Qed.
Lemma hi_sim N fuel : forall i m h hp m', rel N (Z.of_nat fuel) m h hp -> i_loop L bl junk fuel i m = Ret m' ->
  exists h' hp', hi_loop L bl junk kj vj bs fuel i h hp = Ret (h', hp') /\ rel N 1 m' h' hp'.
Proof.
  induction fuel as [|fuel IH]; intros i m h hp m' R; cbn [i_loop hi_loop]; [discriminate|].
  destruct (i <? zlen L); [|intros [= <-]; do 2 eexists; split; [reflexivity|eapply rel_mono; [exact R|lia]]].
  destruct (j_loop L bl junk (S fuel) i (u64 (i + bl)) m 0 0) as [[[m1 dc] lg]| |] eqn:E; cbn [bind]; try discriminate. intros J.
  destruct (hj_sim N (Z.of_nat fuel) (S fuel) i (u64 (i + bl)) m h hp 0 0 m1 dc lg) as (h1 & hp1 & -> & R1); [destruct (fidx 0 m i); (eapply rel_mono; [exact R|lia])|lia|exact E|].
  cbn [bind]. apply (IH _ m1); [|exact J]. destruct (fidx 0 m1 i); (eapply rel_mono; [exact R1|lia]).
Qed.
Lemma rel_init n : 0 <= n <= 2 ^ 31 -> rel n n [] (hbmap_init vptr 1024) [].
Proof. intros Hn. split; [|reflexivity|change (zlen (@nil (Z * tgl (Z * Z)))) with 0; lia]. apply (hinit_ok vptr (trepn 8)); try lia. apply trepn_init; lia. Qed.
Lemma hsearch_sim fuel m : (0 < fuel)%nat -> Z.of_nat fuel <= 2 ^ 31 -> search L bl junk fuel = Ret m -> exists h hp, hsearch L bl junk kj vj bs fuel = Ret (h, hp) /\ rel (Z.of_nat fuel) 1 m h hp.
Proof.
  intros F0 Hf. unfold search, hsearch. destruct (bl <? _).
  - intros E. refine (hi_sim _ _ _ _ _ _ _ (rel_init _ _) E). lia.
  - intros [= <-]. do 2 eexists. split; [reflexivity|]. eapply rel_mono; [apply rel_init; lia|lia].
Qed.

(** ** The report *)
Lemma hcollect_sim N n m h hp : rel N n m h hp -> forall its, Forall (viter h) its -> exists ks, Forall2 (fun it k => hbmap_getkey h it = Ret k) its ks /\
  Forall (fun k => In k (map fst m)) ks /\ forall si, hcollect junk its h hp si = collect junk ks m si.
Proof.
  intros R. pose proof (hinv_hholds vptr has_mem (trepn 8) HV8 4 intcmp cmp_order bs HB inthash cmp_hash _ _ _ (r_h _ _ _ _ _ R)) as (H1 & _).
  induction its as [|it its IH]; intros V; [exists []; repeat split; constructor|]. inversion V as [|? ? V1 V2]; subst. destruct (IH V2) as (ks & F & FI & E).
  destruct (H1 it V1) as (k & v & K & G & F1). exists (k :: ks). split; [constructor; assumption|]. split; [constructor; [apply (fidx_in m k 0); congruence|exact FI]|]. intros si. cbn [hcollect collect]. rewrite G. cbn [bind].
  destruct (dfind k m) as [d|] eqn:D; [|apply (fidx_none m k 0) in D; congruence]. destruct (fidx_some m k 0 d D) as (a & b & Em & F2 & _). assert (v = zlen a) as -> by (rewrite F1 in F2; injection F2 as ->; lia).
  rewrite (r_p _ _ _ _ _ R), Em at 1. rewrite map_app. cbn [map snd]. rewrite (zread_at (map snd a)) by (rewrite zlen_map; reflexivity). cbn [bind].
  destruct (longest_loop _ _ _ _) as [lg| |]; cbn [bind]; [|reflexivity|reflexivity]. destruct (tglist_get d 0) as [x| |]; cbn [bind]; [|reflexivity|reflexivity]. destruct (negb _); [reflexivity|]. rewrite K. cbn [bind].
  destruct (tglist_insert_sorted _ _ _ _ _) as [[r si']| |]; cbn [bind]; [apply E|reflexivity|reflexivity].
Qed.
Lemma hprint_sim N n m h hp start si c : rel N n m h hp -> forall i ds, print_loop L c m start si i = Ret ds -> hprint_loop L bs c h hp start si i = Ret ds.
Proof.
  intros R. induction c as [|c IH]; intros i ds; cbn [print_loop hprint_loop]; [auto|].
  destruct (tglist_get si i) as [x| |]; cbn [bind]; try discriminate. destruct (dfind (snd x) m) as [d|] eqn:D; [|discriminate].
  destruct (rel_find _ _ _ _ _ _ d R D) as (it & a & b & -> & _ & G & _ & Ep & _). cbn [bind]. rewrite G. cbn [bind]. rewrite Ep at 1. rewrite (zread_at (map snd a)) by (rewrite zlen_map; reflexivity). cbn [bind].
  destruct (cnt_loop _ _ _ _ _) as [k| |]; cbn [bind]; try discriminate. destruct (others_loop _ _ _ _) as [o| |]; cbn [bind]; try discriminate. destruct (text_loop _ _ _) as [t| |]; cbn [bind]; try discriminate.
  destruct (print_loop L c m start si (i + 1)) as [r| |] eqn:P; cbn [bind]; try discriminate. rewrite (IH _ _ P). auto.
Qed.
Lemma hreport_sim N m h hp fuel start : NoDup (map fst m) -> rel N 1 m h hp -> N <= Z.of_nat fuel -> exists ks, Permutation ks (map fst m) /\
  forall ds, report L junk (fun _ => ks) start m = Ret ds -> hreport L junk bs fuel start h hp = Ret ds.
Proof.
  intros ND R Hf. pose proof (r_h _ _ _ _ _ R) as HI. pose proof (hinv_okb vptr has_mem (trepn 8) HV8 4 intcmp inthash _ _ _ HI) as OK. pose proof (hi_nb _ _ _ _ _ _ _ HI) as NB.
  set (sz := hsizes h) in *. pose proof (fun it => its_valid h OK NB it) as VI. fold sz in VI.
  destruct (hcollect_sim _ _ _ _ _ R (its 0 sz)) as (ks & F2 & FI & HC); [apply Forall_forall; intros it I; now apply VI|].
  pose proof (hinv_hholds vptr has_mem (trepn 8) HV8 4 intcmp cmp_order bs HB inthash cmp_hash _ _ _ HI) as (_ & U & EX & _).
  assert (NK : NoDup ks).
  { assert (NI : NoDup (its 0 sz)). { pose proof (its_sorted sz 0 OK) as SS. clear - SS. induction SS as [|x l SS IH F]; constructor; [|exact IH]. intros I. rewrite Forall_forall in F. specialize (F x I). lia. }
    assert (FV : Forall (viter h) (its 0 sz)) by (apply Forall_forall; intros it I; now apply VI). clear - F2 NI FV U. induction F2 as [|it k l ks G F2 IH]; constructor; inversion NI; inversion FV; subst; [|now apply IH].
    intros I. assert (X : exists it', In it' l /\ hbmap_getkey h it' = Ret k). { clear - F2 I. induction F2 as [|it' k' l ks G F2 IH]; [destruct I|]. destruct I as [->|I]; [exists it'; split; [now left|exact G]|]. destruct (IH I) as (i' & A & B). exists i'. split; [now right|exact B]. }
    destruct X as (it' & A & B). assert (it = it'); [|congruence]. apply (U it it' k k); auto; [|unfold intcmp; lia]. rewrite Forall_forall in *. auto. }
  assert (P : Permutation ks (map fst m)).
  { apply NoDup_Permutation; auto. intros k. split; [rewrite Forall_forall in FI; apply FI|]. intros I. apply (fidx_in m k 0) in I. destruct (EX k I) as (it & k' & V & G & C). assert (k' = k) as -> by (unfold intcmp in C; lia). apply VI in V.
    clear - F2 V G. induction F2 as [|it' k' l ks G' F2 IH]; [destruct V|]. destruct V as [->|V]; [left; congruence|right; auto]. }
  exists ks. split; [exact P|]. intros ds. unfold report, hreport.
  assert (FE : exists h', hbmap_foreach fuel (fun (h : list (bmap Z (tgl Z))) (_ : Z) => Ret h) h = Ret (its 0 sz, h')).
  { destruct (@foreach_ok Z (tgl Z) 0 sz OK) with (fuel := fuel) (body := fun (h : hmap) (_ : Z) => Ret h) (h := h) as (h' & E & _); [| | | | |exists h'; exact E].
    - unfold sz, hsizes. rewrite zlen_map. lia.
    - intros h0 it E _. exists h0. split; [reflexivity|exact E].
    - reflexivity.
    - unfold sz, hsizes. rewrite zlen_map. lia.
    - assert (FL2 : length (its 0 sz) = length ks) by (clear - F2; induction F2; cbn [length]; congruence). rewrite FL2, (Permutation_length P), map_length. pose proof (r_n _ _ _ _ _ R). unfold zlen in *. lia. }
  destruct FE as (h' & FE).
  rewrite FE.
cbn [bind]. rewrite HC. destruct (collect junk ks m tglist_init) as [si| |]; cbn [bind]; try discriminate. apply (hprint_sim _ _ _ _ _ _ _ _ R).
Qed.
End S.

(** the program with its map of 1024 buckets, whatever bsearch(3) finds among equal keys and whatever
    realloc leaves in new memory, prints the report of c88_report_any *)
Theorem c88_report_hbmap : forall fuel ws bl start end_ junk kj vj bs buf input fl,
  0 <= start < 2 ^ 64 -> 0 <= end_ < 2 ^ 64 -> cut_lines input fl -> zlen fl < 2 ^ 31 -> 1 <= bl < 2 ^ 31 ->
  zlen buf = 1024 -> zlen fl < Z.of_nat fuel <= 2 ^ 31 -> bsearch_conforming bs ->
  let ls := selected ws start end_ (map before0 fl) in
  exists ds, hcodedup fuel ws bl start end_ junk kj vj bs buf input = Ret ds /\
   Forall (fun d => dcnt d = zlen (dothers d) /\ good_block ls bl (dn d) (dat d - start) (map (fun b => b - start) (dothers d)) (dtext d)) ds /\
   ForallOrdPairs (fun d e => dn e < dn d \/ dn e = dn d /\ dat d < dat e) ds /\
   ForallOrdPairs (fun d e => dat d + dn d <= dat e \/ dat e + dn e <= dat d) ds /\
   (forall a b, 0 <= a -> a + bl <= b -> b + bl < zlen ls -> same ls bl a b -> ~ recurs ls bl a -> exists d, In d ds /\ dat d - start <= a < dat d - start + dn d).
Proof.
  intros fuel ws bl start end_ junk kj vj bs buf input fl Hs He FL Lf Hbl Lb F HB ls. unfold hcodedup. pose proof (zlen_nonneg fl). rewrite (c87_lines_exact ws start end_ input fl) by (auto; unfold zlen in *; lia). change (fun s => (string_hash s, s)) with mkline. fold ls. cbn [bind]. destruct (mkline_ok ls) as [M1 M2].
  assert (Ll : zlen (map mkline ls) <= zlen fl). { rewrite zlen_map. unfold ls, selected, slice, zlen. rewrite firstn_length, skipn_length, !map_length. lia. }
  destruct (search_ok (map mkline ls) bl junk ltac:(lia) Hbl M2 fuel) as (m & pm & ES & M & P); [unfold zlen in *; lia|].
  destruct (hsearch_sim (map mkline ls) bl junk kj vj bs HB fuel m ltac:(lia) ltac:(lia) ES) as (h & hp & -> & R). cbn [bind].
  assert (ND : NoDup (map fst m)).
  { replace (map fst m) with (map fst pm) by (clear - M; induction M as [|e p m pm [E _] M IH]; cbn [map]; [reflexivity|now rewrite E, IH]). destruct P as (Pe & Pd & _).
    clear - Pe Pd Hbl. induction Pd as [|[k xs] pm F Pd IH]; cbn [map]; [constructor|]. inversion Pe as [|? ? (H1 & (N & _ & Fo & _) & _) Pe']; subst. constructor; [|auto]. cbn [fst snd] in *. intros I. apply in_map_iff in I as ([k' ys] & E & I). cbn [fst] in E. subst k'. rewrite Forall_forall in F. specialize (F _ I). unfold apart in F. cbn [fst snd] in F. destruct xs as [|x xs]; [contradiction|]. inversion F; inversion Fo; subst. lia. }
  destruct (hreport_sim (map mkline ls) junk kj vj bs HB (Z.of_nat fuel) m h hp fuel start ND R ltac:(lia)) as (ks & PK & HR).
  destruct (report_ok (map mkline ls) bl junk ltac:(lia) Hbl m pm (fun _ => ks) start M P PK) as (ds & ER & RR). rewrite (HR _ ER). rewrite M1, zlen_map in RR. exists ds. split; [reflexivity|exact RR].
Qed.
Print Assumptions c88_report_hbmap.
(** the file of c88_example *)
Example c88_hbmap_example : bsearch_conforming (fun f (l : list Z) => lsearch f 0 l) /\
  hcodedup 30 false 2 0 SIZE_MAX (fun _ => (7, 7)) (fun _ => 9) (fun _ => 9) (fun f l => lsearch f 0 l) (zrepeat 0 1024)
    [120; 10; 121; 10; 122; 10; 45; 10; 120; 10; 121; 10; 43; 10; 120; 10; 121; 10; 122; 10; 46; 10; 113; 10; 114; 10; 113; 10; 114; 10; 115; 10] =
  Ret [mkDup 3 0 1 [7] [[120]; [121]; [122]]; mkDup 2 4 1 [7] [[120]; [121]]; mkDup 2 11 1 [13] [[113]; [114]]].
Proof. split; [intros f l _; apply (lsearch_ok f l 0)|vm_compute; reflexivity]. Qed.
