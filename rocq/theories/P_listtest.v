(** Proofs for M_listtest. *)
From Coq Require Import Permutation.
From Verif Require Import Base Cstr M_sblist M_tglist M_tgishort M_hashlist M_sort M_tltest M_lstest M_listtest S_sblist S_tglist S_listtest D_sblist D_tglist D_tgishort D_tgsort P_sblist P_tglist P_tgilist P_tgishort P_tgsort P_sort P_bench P_lstest.

(** ** tests on any list that does what lists do *)
Section Sim.
Context {L A : Type}.
Variable im : impl L A.
Variable R : Z -> L -> list A -> Prop. (* with how many more additions *)
Variable ok : A -> Prop.
Hypothesis Radd : forall k n l xs x, 0 <= n -> ok x -> R (n + 1) l xs -> exists l', i_add im k l x = Ret l' /\ R n l' (xs ++ [x]).
Hypothesis Rins : forall k n l p q x, 0 <= n -> ok x -> R (n + 1) l (p ++ q) -> exists l', i_ins im k l x (zlen p) = Ret l' /\ R n l' (p ++ x :: q).
Hypothesis Rdel : forall n l p x q, 0 <= n -> R n l (p ++ x :: q) -> exists l', i_del im l (zlen p) = Ret l' /\ R n l' (p ++ q).
Hypothesis Rsize : forall n l xs, 0 <= n -> R n l xs -> i_size im l = zlen xs.
Hypothesis Rget : forall n l p x q, 0 <= n -> R n l (p ++ x :: q) -> i_get im l (zlen p) = Ret x.
Lemma script_ok ss : forall n k l xs r, 0 <= n -> R (n + zlen (stored ss)) l xs -> Forall ok (stored ss) -> should xs ss = Some r ->
  match r with None => script im k l ss = Ret None | Some ys => exists l', script im k l ss = Ret (Some ((k + length (stored ss))%nat, l')) /\ R n l' ys end.
Proof using All.
  induction ss as [|s ss IH]; intros n k l xs r N HR F E.
  - injection E as <-. cbn in *. exists l. split; [now rewrite Nat.add_0_r|]. now rewrite Z.add_0_r in HR.
  - destruct s as [x|x pos|pos|m|pos p]; cbn [script should] in *.
    + change (stored (TAdd x :: ss)) with (x :: stored ss) in *. inversion F as [|? ? Ox F']; subst. rewrite zlen_cons in HR. zpos.
      destruct (Radd k (n + zlen (stored ss)) l xs x ltac:(lia) Ox ltac:(replace (n + zlen (stored ss) + 1) with (n + (1 + zlen (stored ss))) by lia; exact HR)) as (l' & -> & HR'). cbn [bind].
      specialize (IH n (S k) l' _ r N HR' F' E). cbn [length]. now rewrite Nat.add_succ_r.
    + change (stored (TIns x pos :: ss)) with (x :: stored ss) in *. inversion F as [|? ? Ox F']; subst. rewrite zlen_cons in HR. zpos.
      destruct ((0 <=? pos) && (pos <=? zlen xs)) eqn:B; [|discriminate]. apply andb_prop in B as [B1 B2]. apply Z.leb_le in B1, B2.
      destruct (zsplit pos xs) as (p & q & Exs & Hp); [lia|]. subst xs. assert (T : ztake pos (p ++ q) = p) by (rewrite <- Hp; apply ztake_app_exact). assert (D : zdrop pos (p ++ q) = q) by (rewrite <- Hp; apply zdrop_app_exact). rewrite T, D in E.
      destruct (Rins k (n + zlen (stored ss)) l p q x ltac:(lia) Ox ltac:(replace (n + zlen (stored ss) + 1) with (n + (1 + zlen (stored ss))) by lia; exact HR)) as (l' & E' & HR'). rewrite Hp in E'. rewrite E'. cbn [bind].
      specialize (IH n (S k) l' _ r N HR' F' E). cbn [length]. now rewrite Nat.add_succ_r.
    + change (stored (TDel pos :: ss)) with (stored ss) in *. zpos.
      destruct ((0 <=? pos) && (pos <? zlen xs)) eqn:B; [|discriminate]. apply andb_prop in B as [B1 B2]. apply Z.leb_le in B1. apply Z.ltb_lt in B2.
      destruct (zsplit_mid xs pos) as (p & x & q & Exs & Hp); [lia|]. subst xs.
      assert (T : ztake pos (p ++ x :: q) = p) by (rewrite <- Hp; apply ztake_app_exact).
      assert (D : zdrop (pos + 1) (p ++ x :: q) = q) by (replace (p ++ x :: q) with ((p ++ [x]) ++ q) by (rewrite <- app_assoc; reflexivity); replace (pos + 1) with (zlen (p ++ [x])) by (zl; lia); apply zdrop_app_exact).
      rewrite T, D in E. destruct (Rdel (n + zlen (stored ss)) l p x q ltac:(lia) HR) as (l' & E' & HR'). rewrite Hp in E'. rewrite E'. cbn [bind]. exact (IH n k l' _ r N HR' F E).
    + change (stored (TSize m :: ss)) with (stored ss) in *. zpos. rewrite (Rsize (n + zlen (stored ss)) l xs ltac:(lia) HR). destruct (zlen xs =? m); [exact (IH n k l _ r N HR F E)|]. injection E as <-. reflexivity.
    + change (stored (TCheck pos p :: ss)) with (stored ss) in *. zpos. destruct (Z.ltb_spec pos 0); [discriminate|]. destruct (nth_error xs (Z.to_nat pos)) as [x|] eqn:Ex; [|discriminate].
      destruct (nth_error_split _ _ Ex) as (a & b & -> & La). assert (Za : zlen a = pos) by (unfold zlen; lia).
      rewrite <- Za, (Rget (n + zlen (stored ss)) l a x b ltac:(lia) HR). cbn [bind]. destruct (p x) as [[]| |]; try discriminate; cbn [bind]; [exact (IH n k l _ r N HR F E)|]. injection E as <-. reflexivity.
Qed.
End Sim.

(** ** the three lists *)
Section Sb.
Context {A : Type} (enc : A -> list Z) (dec : list Z -> A) (al : nat -> alloc) (sz b lim : Z).
Hypothesis Hal : forall k, al k <> None.
Hypothesis Hlim : lim * sz < 2 ^ 64.
Definition Rsb (n : Z) (l : sbl) (xs : list A) : Prop := Inv lim l (map enc xs) /\ isz l = sz /\ bits l = b /\ zlen xs + n + b <= lim /\ Forall (fun x => dec (enc x) = x) xs.
Definition oksb (x : A) : Prop := zlen (enc x) = sz /\ dec (enc x) = x.
Lemma al_ok k : D_sblist.mem_ok (al k) = true.
Proof using Hal. specialize (Hal k). destruct (al k); [reflexivity|congruence]. Qed.
Lemma sb_script ss n k l xs r : 0 <= n -> Rsb (n + zlen (stored ss)) l xs -> Forall oksb (stored ss) -> should xs ss = Some r ->
  match r with None => script (sb_impl enc dec al) k l ss = Ret None | Some ys => exists l', script (sb_impl enc dec al) k l ss = Ret (Some ((k + length (stored ss))%nat, l')) /\ Rsb n l' ys end.
Proof using All.
  apply (script_ok (sb_impl enc dec al) Rsb oksb); clear - Hal Hlim; cbn [sb_impl i_add i_ins i_del i_size i_get].
  - intros k n l xs x N (Lx & Dx) (I & Hi & Hb & HL & F). destruct (P_sblist.add_ok lim (al k) l (map enc xs) (enc x) I) as (r & l' & -> & [(_ & _ & M)|(-> & I' & Hi' & Hb')]); try (rewrite ?zlen_map, ?Hi, ?Hb; lia); [rewrite al_ok in M; discriminate|].
    cbn [bind]. exists l'. split; [reflexivity|]. split; [now rewrite map_app|]. rewrite Hi', Hb'. repeat split; auto; [zl; lia|]. apply Forall_app. auto.
  - intros k n l p q x N (Lx & Dx) (I & Hi & Hb & HL & F). rewrite map_app in I. destruct (P_sblist.insert_ok lim (al k) l (map enc p) (map enc q) (enc x) (zlen p) I) as (r & l' & -> & [(_ & _ & M)|(-> & I' & Hi' & Hb')]); try (rewrite <- ?map_app, ?zlen_map, ?Hi, ?Hb; lia); [rewrite al_ok in M; discriminate|].
    cbn [bind]. exists l'. split; [reflexivity|]. split; [now rewrite map_app|]. rewrite Hi', Hb'. repeat split; auto; [zl; lia|]. apply Forall_app in F as [F1 F2]. apply Forall_app. auto.
  - intros n l p x q N (I & Hi & Hb & HL & F). rewrite map_app in I. cbn [map] in I. destruct (P_sblist.delete_ok lim l (map enc p) (enc x) (map enc q) I) as (l' & E & I' & Hi' & Hb' & _); [rewrite Hi; lia|]. rewrite zlen_map in E. exists l'. split; [exact E|]. split; [now rewrite map_app|]. rewrite Hi', Hb'. repeat split; auto; [zl; lia|]. apply Forall_app in F as [F1 F2]. inversion F2; subst. apply Forall_app. auto.
  - intros n l xs N (I & _). rewrite (i_cnt _ _ _ I). apply zlen_map.
  - intros n l p x q N (I & Hi & Hb & HL & F). rewrite map_app in I. cbn [map] in I. destruct (P_sblist.get_ok lim l (map enc p) (enc x) (map enc q) I) as (G & E); [rewrite Hi; lia|]. rewrite zlen_map in *. rewrite G. rewrite E. cbn [bind]. apply Forall_app in F as [F1 F2]. inversion F2 as [|? ? Dx ?]; subst. now rewrite Dx.
Qed.
End Sb.
Section Tg.
Context {A : Type} (al : nat -> talloc A) (sz : Z).
Hypothesis Hal : forall k, al k <> None.
Hypothesis Hsz : 1 <= sz.
Definition Rtg (n : Z) (l : tgl A) (xs : list A) : Prop := trep sz l xs /\ (2 * (zlen xs + n) + 4) * sz < 2 ^ 64.
Lemma tal_ok k : has_mem (al k) = true.
Proof using Hal. specialize (Hal k). destruct (al k); [reflexivity|congruence]. Qed.
Lemma tg_script ss n k l xs r : 0 <= n -> Rtg (n + zlen (stored ss)) l xs -> should xs ss = Some r ->
  match r with None => script (tg_impl sz al) k l ss = Ret None | Some ys => exists l', script (tg_impl sz al) k l ss = Ret (Some ((k + length (stored ss))%nat, l')) /\ Rtg n l' ys end.
Proof using All.
  intros N HR. apply (script_ok (tg_impl sz al) Rtg (fun _ => True)); try assumption; [..|now apply Forall_forall]; clear - Hal Hsz; cbn [tg_impl i_add i_ins i_del i_size i_get].
  - intros k n l xs x N _ (T & HL). zpos. destruct (add_ok sz Hsz (al k) l xs x T ltac:(nia)) as (r & l' & -> & [(_ & _ & M)|(-> & T')]); [rewrite tal_ok in M; discriminate|]. cbn [bind]. exists l'. split; [reflexivity|]. split; [exact T'|]. zl. nia.
  - intros k n l p q x N _ (T & HL). rewrite zlen_app in HL. zpos. destruct (insert_ok sz Hsz (al k) l p q x (zlen p) T ltac:(zl; nia) eq_refl) as (r & l' & -> & [(_ & _ & M)|(-> & T')]); [rewrite tal_ok in M; discriminate|]. cbn [bind]. exists l'. split; [reflexivity|]. split; [exact T'|]. zl. nia.
  - intros n l p x q N (T & HL). destruct (delete_ok sz Hsz l p x q (zlen p) T eq_refl) as (l' & -> & T'). cbn [bind]. exists l'. split; [reflexivity|]. split; [exact T'|]. zl. zpos. nia.
  - intros n l xs N (T & _). apply T.
  - intros n l p x q N (T & _). apply (get_ok sz l p x q T).
Qed.
End Tg.
Lemma app_inj {A} (p q p' q' : list A) : zlen p = zlen p' -> p ++ q = p' ++ q' -> p = p' /\ q = q'.
Proof. intros L E. split; [rewrite <- (ztake_app_exact p q), E, L; apply ztake_app_exact|rewrite <- (zdrop_app_exact p q), E, L; apply zdrop_app_exact]. Qed.
Section Tgi.
Context {A : Type} (ai : nat -> talloc Z) (av : nat -> talloc A) (isz M : Z).
Hypothesis Hi : forall k, ai k <> None.
Hypothesis Hv : forall k, av k <> None.
Hypothesis Hsz : 1 <= isz.
Hypothesis HM : M <= 65536.
Hypothesis HL : (2 * M + 4) * isz < 2 ^ 64.
Variable im : impl (tgi A) A.
Hypothesis Hadd : forall k x vs y, trep isz (gval x) vs -> zlen vs < M -> i_add im k x y = let* (r, x) := tgilist_add 65536 2 isz (ai k) (av k) x y in Ret x.
Hypothesis Hins : forall k x vs y p, trep isz (gval x) vs -> zlen vs < M -> i_ins im k x y p = let* (r, x) := tgilist_insert 65536 2 isz (ai k) (av k) x y p in Ret x.
Hypothesis Hdel : forall x p, i_del im x p = let* (r, x) := tgilist_delete 2 x p in Ret x.
Hypothesis Hsize : forall x, i_size im x = tgilist_getsize x.
Hypothesis Hget : forall x p, i_get im x p = tgilist_get x p.
Definition Rtgi (n : Z) (x : tgi A) (xs : list A) : Prop := exists ks vs, grep 2 isz x ks vs /\ pick vs ks xs /\ zlen vs + n <= M /\ zlen ks + n <= M.
Lemma both k : both_mem (ai k, av k) = true.
Proof using Hi Hv. specialize (Hi k). specialize (Hv k). unfold both_mem. cbn [fst snd]. destruct (ai k), (av k); try congruence. reflexivity. Qed.
Lemma tgi_script ss n k l xs r : 0 <= n -> Rtgi (n + zlen (stored ss)) l xs -> should xs ss = Some r ->
  match r with None => script im k l ss = Ret None | Some ys => exists l', script im k l ss = Ret (Some ((k + length (stored ss))%nat, l')) /\ Rtgi n l' ys end.
Proof using All.
  intros N HR. apply (script_ok im Rtgi (fun _ => True)); try assumption; [..|now apply Forall_forall]; clear N HR.
  - clear n k l xs r. intros k n l xs x N _ (ks & vs & G & P & B & Bk). zpos. rewrite (Hadd k l vs x (g_val _ _ _ _ _ G) ltac:(lia)).
    destruct (gexec_ok 65536 2 isz ltac:(lia) Hsz (ai k, av k) l ks vs xs (LAdd x) G P ltac:(lia) ltac:(nia) ltac:(nia) I) as (r & x' & ks' & vs' & xs' & E & G' & P' & S & B1 & B2 & _).
    cbn [gexec fst snd] in E. destruct (tgilist_add 65536 2 isz (ai k) (av k) l x) as [[r0 y0]| |]; try discriminate. cbn [bind] in *. injection E as <- ->. exists x'. split; [reflexivity|].
    rewrite both in S. inversion S; subst; [|discriminate]. exists ks', vs'. repeat split; try apply G'; auto; lia.
  - clear n k l xs r. intros k n l p q x N _ (ks & vs & G & P & B & Bk). zpos. rewrite (Hins k l vs x (zlen p) (g_val _ _ _ _ _ G) ltac:(lia)).
    assert (V : lvalid (tgilist_getsize l) (LIns x (zlen p))) by (cbn; unfold tgilist_getsize; rewrite (r_cnt _ _ _ (g_idx _ _ _ _ _ G)), (pick_len _ _ _ P); zl; zpos; lia).
    destruct (gexec_ok 65536 2 isz ltac:(lia) Hsz (ai k, av k) l ks vs (p ++ q) (LIns x (zlen p)) G P ltac:(lia) ltac:(nia) ltac:(nia) V) as (r & x' & ks' & vs' & xs' & E & G' & P' & S & B1 & B2 & _).
    cbn [gexec fst snd] in E. destruct (tgilist_insert 65536 2 isz (ai k) (av k) l x (zlen p)) as [[r0 y0]| |]; try discriminate. cbn [bind] in *. injection E as <- ->. exists x'. split; [reflexivity|].
    rewrite both in S. inversion S as [| |p' q' ? EP | | | |]; subst; [|discriminate]; assert (EL : zlen p' = zlen p) by assumption. destruct (app_inj _ _ _ _ EL EP) as [-> ->]. exists ks', vs'. repeat split; try apply G'; auto; lia.
  - clear n k l xs r. intros n l p x q N (ks & vs & G & P & B & Bk). rewrite Hdel. destruct (pick_app_inv vs (ztake (zlen p) ks) (zdrop (zlen p) ks) (p ++ x :: q)) as (p' & xq & E & P1 & P2); [now rewrite ztake_zdrop|].
    pose proof (pick_len _ _ _ P) as Ln. rewrite zlen_app, zlen_cons in Ln. zpos.
    assert (L1 : zlen p = zlen p') by (rewrite <- (pick_len _ _ _ P1); rewrite zlen_ztake; lia).
    destruct (app_inj _ _ _ _ L1 E) as [<- <-]. destruct (zdrop (zlen p) ks) as [|k0 kq] eqn:Ed; inversion P2; subst.
    assert (Ek : ks = ztake (zlen p) ks ++ k0 :: kq) by (rewrite <- Ed; symmetry; apply ztake_zdrop).
    set (kp := ztake (zlen p) ks) in *. assert (Lp : zlen kp = zlen p) by (rewrite (pick_len _ _ _ P1); reflexivity). clearbody kp. subst ks. destruct G as [Gi Gv Gr Gd].
    destruct (delete_ok 2 ltac:(lia) (gidx l) kp k0 kq (zlen p) Gi ltac:(lia)) as (i' & E' & T'). unfold tgilist_delete. rewrite E'. cbn [bind]. eexists. split; [reflexivity|].
    exists (kp ++ kq), vs. split; [split; cbn [gidx gval]; auto|].
    + apply Forall_app in Gr as [G1 G2]. inversion G2; subst. apply Forall_app. auto.
    + now apply NoDup_remove_1 in Gd.
    + split; [now apply pick_app|]. split; [lia|]. rewrite zlen_app, zlen_cons in Bk. rewrite zlen_app. lia.
  - clear n k l xs r. intros n l xs N (ks & vs & G & P & B & Bk). rewrite Hsize. unfold tgilist_getsize. rewrite (r_cnt _ _ _ (g_idx _ _ _ _ _ G)). exact (pick_len _ _ _ P).
  - clear n k l xs r. intros n l p x q N (ks & vs & G & P & B & Bk). rewrite Hget. rewrite (grep_get 2 isz l ks vs (p ++ x :: q) (zlen p) x G P) by (zl; zpos; lia). now rewrite znth_app_exact.
Qed.
End Tgi.
Lemma tgs_script {A} (ai : nat -> talloc Z) (av : nat -> talloc A) isz k0 ss r : (forall k, ai k <> None) -> (forall k, av k <> None) -> 1 <= isz -> zlen (stored ss) <= 32768 -> isz <= 2 ^ 40 -> should [] ss = Some r ->
  exists o, script (tgs_impl isz ai av) k0 tgilist_init ss = Ret o /\ (o = None <-> r = None).
Proof.
  intros Hi Hv Hs HL HI E. zpos.
  pose proof (tgi_script ai av isz 32768 Hi Hv Hs ltac:(lia) ltac:(nia) (tgs_impl isz ai av)) as H.
  assert (HS : forall k (x : tgi A) vs (o : lop A), trep isz (gval x) vs -> zlen vs < 32768 -> sexec 65536 2 isz (ai k, av k) x o = gexec 65536 2 isz (ai k, av k) x o).
  { intros k x vs o T L. pose proof (zlen_nonneg vs). apply (sexec_same 65536 2 isz ltac:(lia) Hs ltac:(lia) (ai k, av k) x o vs T); [exact L|nia]. }
  specialize (H ltac:(intros k x vs y T L; specialize (HS k x vs (LAdd y) T L); cbn [sexec gexec fst snd] in HS; cbn [tgs_impl i_add];
    destruct (tgilist_add_s 65536 2 isz (ai k) (av k) x y) as [[]| |]; destruct (tgilist_add 65536 2 isz (ai k) (av k) x y) as [[]| |]; cbn [bind] in *; try discriminate; try reflexivity; congruence)).
  specialize (H ltac:(intros k x vs y p T L; specialize (HS k x vs (LIns y p) T L); cbn [sexec gexec fst snd] in HS; cbn [tgs_impl i_ins];
    destruct (tgilist_insert_s 65536 2 isz (ai k) (av k) x y p) as [[]| |]; destruct (tgilist_insert 65536 2 isz (ai k) (av k) x y p) as [[]| |]; cbn [bind] in *; try discriminate; try reflexivity; congruence)).
  specialize (H ltac:(reflexivity) ltac:(reflexivity) ltac:(reflexivity) ss 0 k0 tgilist_init [] r ltac:(lia)).
  assert (R0 : Rtgi isz 32768 (0 + zlen (stored ss)) (@tgilist_init A) []) by (exists [], []; split; [apply ginit; lia|]; split; [constructor|]; change (zlen (@nil Z)) with 0; change (zlen (@nil A)) with 0; lia).
  specialize (H R0 E). destruct r as [ys|]; [destruct H as (l' & H & _)|]; rewrite H; eexists; (split; [reflexivity|]); split; congruence.
Qed.
Lemma tgu_script {A} (ai : nat -> talloc Z) (av : nat -> talloc A) isz k0 ss r : (forall k, ai k <> None) -> (forall k, av k <> None) -> 1 <= isz -> zlen (stored ss) <= 65536 -> isz <= 2 ^ 40 -> should [] ss = Some r ->
  exists o, script (tgu_impl isz ai av) k0 tgilist_init ss = Ret o /\ (o = None <-> r = None).
Proof.
  intros Hi Hv Hs HL HI E. zpos.
  pose proof (tgi_script ai av isz 65536 Hi Hv Hs ltac:(lia) ltac:(nia) (tgu_impl isz ai av) ltac:(reflexivity) ltac:(reflexivity) ltac:(reflexivity) ltac:(reflexivity) ltac:(reflexivity) ss 0 k0 tgilist_init [] r ltac:(lia)) as H.
  assert (R0 : Rtgi isz 65536 (0 + zlen (stored ss)) (@tgilist_init A) []) by (exists [], []; split; [apply ginit; lia|]; split; [constructor|]; change (zlen (@nil Z)) with 0; change (zlen (@nil A)) with 0; lia).
  specialize (H R0 E). destruct r as [ys|]; [destruct H as (l' & H & _)|]; rewrite H; eexists; (split; [reflexivity|]); split; congruence.
Qed.
(** ** the loop of tglist_insert_test *)
Definition nums (n : nat) : list Z := map Z.of_nat (seq 0 n).
Lemma nums_S n : nums (S n) = nums n ++ [Z.of_nat n].
Proof. unfold nums. rewrite seq_S, map_app. reflexivity. Qed.
Lemma zlen_nums n : zlen (nums n) = Z.of_nat n.
Proof. unfold nums, zlen. now rewrite map_length, seq_length. Qed.
Lemma nums_nth n i : (i < n)%nat -> nth_error (nums n) i = Some (Z.of_nat i).
Proof. intros H. unfold nums. rewrite nth_error_map, (nth_error_nth' _ 0%nat) by (rewrite seq_length; exact H). rewrite seq_nth by exact H. reflexivity. Qed.
Definition loop_part (a n : nat) : list (step Z) := flat_map (fun i => [TIns (Z.of_nat i) (Z.of_nat i); TSize (Z.of_nat i + 1)]) (seq a n).
Lemma loop_part_ok n : forall a rest, should (nums a) (loop_part a n ++ rest) = should (nums (a + n)) rest.
Proof.
  induction n as [|n IH]; intros a rest; [now rewrite Nat.add_0_r|]. unfold loop_part. cbn [seq flat_map app should]. rewrite zlen_nums.
  replace ((0 <=? Z.of_nat a) && (Z.of_nat a <=? Z.of_nat a)) with true by lia.
  assert (E1 : ztake (Z.of_nat a) (nums a) = nums a) by (apply ztake_all; rewrite zlen_nums; lia). assert (E2 : zdrop (Z.of_nat a) (nums a) = []) by (apply zdrop_all; rewrite zlen_nums; lia).
  rewrite E1, E2, <- nums_S, zlen_nums. replace (Z.of_nat (S a) =? Z.of_nat a + 1) with true by lia. fold (loop_part (S a) n). rewrite IH. f_equal. f_equal. lia.
Qed.
Lemma stored_loop n : forall a, length (stored (loop_part a n)) = n.
Proof. induction n as [|n IH]; intros a; [reflexivity|]. exact (f_equal S (IH (S a))). Qed.
Lemma stored_app {A} (a b : list (step A)) : stored (a ++ b) = stored a ++ stored b.
Proof. apply flat_map_app. Qed.
Lemma should_get {A} (xs : list A) pos p ss x : 0 <= pos -> nth_error xs (Z.to_nat pos) = Some x -> p x = Ret true -> should xs (TCheck pos p :: ss) = should xs ss.
Proof. intros P E Px. cbn [should]. replace (pos <? 0) with false by lia. now rewrite E, Px. Qed.
Lemma should_getz xs pos v ss : 0 <= pos < zlen xs -> znth 0 xs pos = v -> should xs (TGet pos v :: ss) = should xs ss.
Proof. intros P E. apply (should_get _ _ _ _ v); [lia| |now rewrite Z.eqb_refl]. unfold znth in E. rewrite <- E. apply nth_error_nth'. unfold zlen in P. lia. Qed.
Lemma znth_nums n i : 0 <= i < Z.of_nat n -> znth 0 (nums n) i = i.
Proof. intros H. unfold znth. assert (E := nums_nth n (Z.to_nat i) ltac:(lia)). apply (nth_error_nth _ _ 0) in E. rewrite E. lia. Qed.
Lemma loop_should N : 16000 < Z.of_nat N -> should [] (loop_steps N) = Some (Some (nums N)) /\ length (stored (loop_steps N)) = N.
Proof.
  intros HN. unfold loop_steps. fold (loop_part 0 N). split.
  - change (should [] ([TSize 0] ++ loop_part 0 N ++ first4 ++ [TGet 16000 16000])) with (should (nums 0) (loop_part 0 N ++ first4 ++ [TGet 16000 16000])). rewrite loop_part_ok. cbn [Nat.add].
    unfold first4. cbn [app]. rewrite !should_getz by (try (rewrite zlen_nums); try (apply znth_nums); lia). reflexivity.
  - rewrite !stored_app, !app_length, stored_loop. cbn. lia.
Qed.
(** the place of 3 in 0 .. N - 1 *)
Lemma place N p q : 4 < Z.of_nat N -> nums N = p ++ q -> D_tgsort.tsorted intcmp (p ++ 3 :: q) -> p ++ 3 :: q = nums 4 ++ 3 :: map Z.of_nat (seq 4 (N - 4)) /\ 0 < zlen p.
Proof.
  intros HN E S. assert (L : Z.of_nat N = zlen p + zlen q) by (rewrite <- zlen_app, <- E; symmetry; apply zlen_nums). zpos.
  assert (Ep : p = nums (length p)).
  { assert (H : firstn (length p) (nums N) = p) by (rewrite E, firstn_app, Nat.sub_diag, firstn_all; cbn; apply app_nil_r). rewrite <- H at 1. unfold nums. rewrite firstn_map. f_equal.
    replace N with (length p + (N - length p))%nat by (unfold zlen in *; lia). rewrite seq_app, firstn_app, seq_length, Nat.sub_diag. cbn [firstn]. rewrite app_nil_r. apply firstn_all2. now rewrite seq_length. }
  assert (Eq : q = map Z.of_nat (seq (length p) (N - length p))).
  { assert (H : nums N = nums (length p) ++ map Z.of_nat (seq (length p) (N - length p))). { unfold nums. rewrite <- map_app. f_equal. replace N with (length p + (N - length p))%nat at 1 by (unfold zlen in *; lia). now rewrite seq_app. }
    rewrite E in H. rewrite <- Ep in H. now apply app_inv_head in H. }
  assert (B : length p = 3%nat \/ length p = 4%nat).
  { assert (Hle : forall x, In x p -> x <= 3 /\ True). { clear - S. induction p as [|a p IH]; intros x I; [destruct I|]. cbn [app] in S. inversion S as [|? ? F S']; subst. destruct I as [->|I]; [|exact (IH S' x I)]. rewrite Forall_app in F. destruct F as [_ F]. inversion F; subst. unfold intcmp in *. split; [lia|exact I]. }
    assert (Hge : forall x, In x q -> 3 <= x). { clear - S. induction p as [|a p IH]; intros x I. - cbn [app] in S. inversion S as [|? ? F S']; subst. rewrite Forall_forall in F. specialize (F x I). unfold intcmp in F. lia. - cbn [app] in S. inversion S; subst. auto. }
    destruct (Nat.le_gt_cases (length p) 2) as [H|H].
    - exfalso. rewrite Eq in Hge. specialize (Hge 2). assert (3 <= 2); [|lia]. apply Hge. change 2 with (Z.of_nat 2). apply in_map, in_seq. unfold zlen in *. lia.
    - destruct (Nat.le_gt_cases (length p) 4) as [H'|H']; [lia|]. exfalso. rewrite Ep in Hle. specialize (Hle 4). assert (4 <= 3); [|lia]. apply Hle. change 4 with (Z.of_nat 4). unfold nums. apply in_map, in_seq. lia. }
  rewrite Ep, Eq. assert (0 < zlen p) by (unfold zlen; lia). split; [|rewrite <- Ep; assumption]. destruct B as [->| ->]; [|reflexivity].
  replace (N - 3)%nat with (Datatypes.S (N - 4)) by lia. reflexivity.
Qed.
Lemma intcmp_order : total_order intcmp.
Proof. unfold intcmp. split; intros; lia. Qed.
Lemma nums_sorted n : D_tgsort.tsorted intcmp (nums n).
Proof.
  unfold nums. generalize 0%nat. induction n as [|n IH]; intros a; [constructor|]. cbn [seq map]. constructor; [|apply IH]. apply Forall_forall. intros x I. apply in_map_iff in I as (y & <- & I). apply in_seq in I. unfold intcmp. lia.
Qed.
Lemma tg_loop_ok al k N : (forall k, al k <> None) -> 16000 < Z.of_nat N -> Z.of_nat N < 2 ^ 60 -> exists k', tg_loop_test al k N = Ret (Some k').
Proof.
  intros Hal HN HN2. unfold tg_loop_test. destruct (loop_should N HN) as [ES EL].
  pose proof (tg_script al 4 Hal ltac:(lia) (loop_steps N) 1 k tglist_init [] (Some (nums N)) ltac:(lia)) as H. assert (R0 : Rtg 4 (1 + zlen (stored (loop_steps N))) (@tglist_init Z) []) by (split; [apply init_trep|]; unfold zlen; rewrite EL; cbn [length]; lia).
  destruct (H R0 ES) as (l & -> & T & _). clear H R0. cbn [bind].
  destruct (P_tgsort.insert_sorted_ok 4 intcmp ltac:(lia) (al (k + length (stored (loop_steps N)))%nat) l (nums N) 3 T ltac:(rewrite zlen_nums; lia)) as (r & l' & -> & [(_ & _ & M)|(p & q & Epq & -> & T' & S)]).
  { rewrite tal_ok in M by exact Hal. discriminate. }
  specialize (S intcmp_order (nums_sorted N)). destruct (place N p q ltac:(lia) Epq S) as (E & P0). cbn [bind]. replace (zlen p =? 0) with false by lia. rewrite E in T'.
  set (ys := nums 4 ++ 3 :: map Z.of_nat (seq 4 (N - 4))) in *.
  assert (Ly : zlen ys = Z.of_nat N + 1) by (unfold ys; rewrite zlen_app, zlen_cons, zlen_nums, zlen_map; unfold zlen; rewrite seq_length; lia).
  assert (SH : should ys [TGet 3 3; TGet 4 3; TGet 16000 15999] = Some (Some ys)).
  { rewrite !should_getz; try lia; try reflexivity. unfold ys. rewrite znth_app2 by (rewrite zlen_nums; lia). rewrite zlen_nums. change (16000 - Z.of_nat 4) with 15996.
    change (3 :: map Z.of_nat (seq 4 (N - 4))) with ([3] ++ map Z.of_nat (seq 4 (N - 4))). rewrite znth_app2 by (change (zlen [3]) with 1; lia). change (zlen [3]) with 1.
    unfold znth. rewrite (nth_indep _ 0 (Z.of_nat 0)) by (rewrite map_length, seq_length; lia). rewrite map_nth, seq_nth by lia. lia. }
  destruct (tg_script al 4 Hal ltac:(lia) [TGet 3 3; TGet 4 3; TGet 16000 15999] 0 (Datatypes.S (k + length (stored (loop_steps N)))) l' ys _ ltac:(lia) ltac:(split; [exact T'|]; rewrite Ly; change (zlen (stored [TGet 3 3; TGet 4 3; TGet 16000 15999])) with 0; lia) SH) as (l'' & -> & _).
  cbn. eexists. reflexivity.
Qed.
(** ** the strings *)
Fixpoint nd (l : list (list Z)) : bool := match l with [] => true | x :: l => negb (existsb (fun y => if list_eq_dec Z.eq_dec x y then true else false) l) && nd l end.
Lemma nd_ok l : nd l = true -> NoDup l.
Proof.
  induction l as [|x l IH]; intros H; [constructor|]. cbn [nd] in H. apply andb_prop in H as [H1 H2]. constructor; [|auto]. intros I. apply Bool.negb_true_iff in H1. assert (E : existsb (fun y => if list_eq_dec Z.eq_dec x y then true else false) l = true); [|congruence].
  apply existsb_exists. exists x. split; [exact I|]. destruct (list_eq_dec Z.eq_dec x x); congruence.
Qed.
Section Str.
Variable mag : list Z -> list Z -> Z.
Hypothesis Hmag : forall a b, 0 < mag a b.
Notation scmp := (mystrstrcmp mag).
Lemma scmp_order : total_order scmp.
Proof using All. destruct (P_bench.strcmp_order mag Hmag) as [H1 H2]. split; intros; unfold mystrstrcmp in *; [apply H1|eapply H2; eassumption]. Qed.
(** the first of a sorted list *)
Lemma head_min d x t : tsorted scmp (x :: t) -> In d (x :: t) -> (forall y, In y (x :: t) -> scmp y d <= 0 -> y = d) -> x = d.
Proof using All.
  intros S I U. apply U; [now left|]. inversion S as [|? ? F _]; subst. destruct I as [<-|I].
  - unfold mystrstrcmp. assert (H := proj2 (P_bench.strcmp_eq mag Hmag (strof x) (strof x)) eq_refl). lia.
  - rewrite Forall_forall in F. exact (F d I).
Qed.
Definition D : option (list Z) := Some (nth 7 org []).
Lemma below_duis y : In y (map Some org) -> scmp y D <= 0 -> y = D.
Proof using All.
  intros I. unfold mystrstrcmp. rewrite (P_bench.strcmp_le mag Hmag). assert (H : forallb (fun y => (0 <? M_bench.lex (strof y) (strof D)) || (if list_eq_dec Z.eq_dec (strof y) (strof D) then true else false)) (map Some org) = true) by (vm_compute; reflexivity).
  rewrite forallb_forall in H. specialize (H y I). intros L. apply Bool.orb_true_iff in H as [H|H]; [apply Z.ltb_lt in H; lia|]. apply in_map_iff in I as (s & <- & _). unfold D in *. cbn [strof] in *. destruct (list_eq_dec Z.eq_dec s (nth 7 org [])) as [->|]; [reflexivity|discriminate].
Qed.
Lemma perm_sorted_duis xs : tsorted scmp xs -> Permutation xs (map Some (org ++ org)) -> exists x t, xs = D :: D :: x :: t /\ In x (map Some org) /\ x <> D.
Proof using All.
  intros S P. assert (Hin : forall y, In y xs -> In y (map Some org)). { intros y I. apply (Permutation_in _ P) in I. rewrite map_app in I. apply in_app_or in I. tauto. }
  destruct (in_split D (map Some org)) as (a & b & E); [unfold D; apply in_map, nth_In; vm_compute; lia|].
  assert (ND : ~ In D (a ++ b)). { assert (N : NoDup (map Some org)). { apply FinFun.Injective_map_NoDup; [intros s t H; congruence|]. apply nd_ok. vm_compute. reflexivity. } rewrite E in N. now apply NoDup_remove_2 in N. }
  assert (Pm : Permutation xs (D :: D :: (a ++ b) ++ (a ++ b))).
  { etransitivity; [exact P|]. rewrite map_app, E. etransitivity; [apply Permutation_app; symmetry; apply Permutation_middle|]. cbn [app]. apply perm_skip. symmetry. apply Permutation_middle. }
  destruct xs as [|x xs]; [apply Permutation_nil_cons in Pm; destruct Pm|].
  assert (x = D) as ->. { apply (head_min D x xs S); [eapply Permutation_in; [symmetry; exact Pm|now left]|]. intros y I. apply below_duis, Hin, I. }
  apply Permutation_cons_inv in Pm. inversion S as [|? ? _ S']; subst. destruct xs as [|x xs]; [apply Permutation_nil_cons in Pm; destruct Pm|].
  assert (x = D) as ->. { apply (head_min D x xs S'); [eapply Permutation_in; [symmetry; exact Pm|now left]|]. intros y I. apply below_duis, Hin. now right. }
  apply Permutation_cons_inv in Pm. destruct xs as [|x xs].
  - apply Permutation_nil in Pm. apply app_eq_nil in Pm as [Pm _]. apply (f_equal (@length _)) in E. rewrite app_length in E. cbn [length] in E. apply (f_equal (@length _)) in Pm. rewrite app_length in Pm. change (length (map Some org)) with 13%nat in E. change (length (@nil (option (list Z)))) with 0%nat in Pm. exfalso. lia.
  - exists x, xs. split; [reflexivity|]. split; [apply Hin; right; right; now left|]. intros ->. apply ND. assert (I : In D ((a ++ b) ++ a ++ b)) by (eapply Permutation_in; [exact Pm|now left]). apply in_app_or in I. tauto.
Qed.

Variable qs : list (option (list Z)) -> list (option (list Z)).
Hypothesis Hqs : forall xs, Permutation (qs xs) xs /\ tsorted scmp (qs xs).
Variable al : nat -> talloc (option (list Z)).
Hypothesis Hal : forall k, al k <> None.
Variable dup : nat -> bool.
Hypothesis Hdup : forall n, dup n = true.
Lemma dup_ok n s : strdup dup n s = Some s.
Proof using Hdup. unfold strdup. now rewrite Hdup. Qed.
Lemma dup_loop_ok ss : forall n k l xs, trep 8 l xs -> zlen xs + zlen ss < 2 ^ 50 -> exists n' l', dup_loop al dup n k l ss = Ret (n', l') /\ trep 8 l' (xs ++ map Some ss).
Proof using All.
  induction ss as [|s ss IH]; intros n k l xs T B; cbn [dup_loop map]; [exists n, l; rewrite app_nil_r; auto|]. rewrite zlen_cons in B. zpos.
  destruct (P_tglist.add_ok 8 ltac:(lia) (al k) l xs (Some s) T ltac:(lia)) as (r & l' & E & [(_ & _ & M)|(-> & T')]); [rewrite tal_ok in M by exact Hal; discriminate|].
  unfold tglist_add in E. destruct (tglist_prepare_addition 8 (al k) l) as [ok0 l0]. destruct (negb (ok0 =? 0)); [|discriminate E]. rewrite dup_ok, E. cbn [bind].
  destruct (IH (Datatypes.S n) (Datatypes.S k) l' _ T' ltac:(zl; lia)) as (n' & l'' & -> & T''). exists n', l''. rewrite <- app_assoc in T''. auto.
Qed.
Lemma sorted_loop_ok ss : forall n k l xs, trep 8 l xs -> tsorted scmp xs -> zlen xs + zlen ss < 2 ^ 50 -> exists l' ys, sorted_loop mag al dup n k l ss = Ret l' /\ trep 8 l' ys /\ tsorted scmp ys /\ Permutation ys (xs ++ map Some ss).
Proof using All.
  induction ss as [|s ss IH]; intros n k l xs T S B; cbn [sorted_loop map]; [exists l, xs; rewrite app_nil_r; auto|]. rewrite zlen_cons in B. zpos. rewrite dup_ok.
  destruct (P_tgsort.insert_sorted_ok 8 scmp ltac:(lia) (al k) l xs (Some s) T ltac:(lia)) as (r & l' & -> & [(_ & _ & M)|(p & q & -> & -> & T' & S')]); [rewrite tal_ok in M by exact Hal; discriminate|].
  cbn [bind]. destruct (IH (Datatypes.S n) (Datatypes.S k) l' _ T' (S' scmp_order S) ltac:(zl; zl; lia)) as (l'' & ys & -> & T'' & S'' & P). exists l'', ys. repeat split; try apply T''; auto.
  etransitivity; [exact P|]. rewrite <- !app_assoc. apply Permutation_app_head. cbn [app]. apply Permutation_middle.
Qed.
Lemma strtest_ok k : tg_strtest mag qs al dup k = Ret true.
Proof using All.
  unfold tg_strtest. destruct (dup_loop_ok org 0 k tglist_init [] (init_trep 8)) as (n & l & -> & T); [vm_compute; reflexivity|]. cbn [bind app] in *.
  assert (SH : should (map Some org) all_org = Some (Some (map Some org))) by (vm_compute; reflexivity).
  destruct (tg_script al 8 Hal ltac:(lia) all_org 0 (k + length org)%nat l (map Some org) _ ltac:(lia) ltac:(split; [exact T|vm_compute; reflexivity]) SH) as (l1 & -> & T1 & _). cbn [bind].
  destruct (Hqs (map Some org)) as [P S]. destruct (tsort_ok 8 ltac:(lia) qs l1 _ T1 P) as (l2 & -> & T2). cbn [bind].
  assert (Lq : zlen (qs (map Some org)) = 13) by (rewrite (zlen_perm _ _ _ P); reflexivity).
  destruct (sorted_loop_ok org n (k + length org + length (stored all_org))%nat l2 _ T2 S) as (l3 & ys & -> & T3 & S3 & P3); [rewrite Lq; change (zlen org) with 13; lia|]. cbn [bind].
  assert (P4 : Permutation ys (map Some (org ++ org))) by (etransitivity; [exact P3|]; rewrite map_app; apply Permutation_app_tail; exact P).
  assert (Ly : zlen ys = 26) by (rewrite (zlen_perm _ _ _ P4); reflexivity).
  destruct (perm_sorted_duis ys S3 P4) as (x & t & -> & Ix & Nx).
  assert (SH2 : should (D :: D :: x :: t) [TCheck 0 duis; TCheck 1 duis; TDel 1; TDel 0; TCheck 0 not_duis] = Some (Some (x :: t))).
  { rewrite (should_get _ 0 duis _ D) by (try lia; reflexivity). rewrite (should_get _ 1 duis _ D) by (try lia; reflexivity). cbn [should]. rewrite Ly. cbn [Z.leb Z.ltb Z.compare Pos.compare Pos.compare_cont andb]. change (ztake 1 (D :: D :: x :: t)) with [D]. change (zdrop (1 + 1) (D :: D :: x :: t)) with (x :: t). cbn [app]. rewrite !zlen_cons in *. replace (0 <? 1 + (1 + zlen t)) with true by (zpos; lia). change (ztake 0 (D :: x :: t)) with (@nil (option (list Z))). change (zdrop (0 + 1) (D :: x :: t)) with (x :: t). cbn [app nth_error Z.to_nat].
    assert (H : forallb (fun y => match not_duis (Some y) with Ret true => true | _ => if list_eq_dec Z.eq_dec y (nth 7 org []) then true else false end) org = true) by (vm_compute; reflexivity).
    rewrite forallb_forall in H. apply in_map_iff in Ix as (s & <- & Is). specialize (H s Is). destruct (not_duis (Some s)) as [[]| |]; [reflexivity|..]; (destruct (list_eq_dec Z.eq_dec s (nth 7 org [])) as [->|]; [exfalso; apply Nx; reflexivity|discriminate]). }
  assert (R3 : Rtg 8 (0 + zlen (stored [TCheck 0 duis; TCheck 1 duis; TDel 1; TDel 0; TCheck 0 not_duis])) l3 (D :: D :: x :: t)) by (split; [exact T3|rewrite Ly; change (zlen (stored [TCheck 0 duis; TCheck 1 duis; TDel 1; TDel 0; TCheck 0 not_duis])) with 0; lia]).
  destruct (tg_script al 8 Hal ltac:(lia) [TCheck 0 duis; TCheck 1 duis; TDel 1; TDel 0; TCheck 0 not_duis] 0 (k + length org + length (stored all_org) + length org)%nat l3 (D :: D :: x :: t) (Some (x :: t)) ltac:(lia) R3 SH2) as (l4 & E4 & _). rewrite E4. reflexivity.
Qed.
End Str.
