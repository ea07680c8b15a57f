(** Theorems added after single-token changes of the model went unnoticed. *)
From Coq Require Import String Ascii.
From Verif Require Import Base Cstr M_stringptr M_spl M_fileparser M_spfile S_stringptr S_fileparser D_stringptr D_fileparser P_stringptr P_fileparser P_spfile
  M_sblist M_heap M_own D_own M_bench M_find M_hashtest T_fileparser.

(** C51: fileparser_getline gives the line that was just read, without the terminator *)
Theorem c51_getline p pre l r b g n : ffd p <> 0 -> fcont p = pre ++ l ++ r -> foff p = zlen pre -> fpos p = foff p -> zlen (fcont p) < 2 ^ 63 ->
  ~ In 10 l -> (exists r', r = 10 :: r') \/ r = [] /\ l <> [] -> zlen b = n -> zlen l < n ->
  exists p' buf', readline_userbuf None None p (b ++ g) n = Ret (0, p', buf') /\ getline p' buf' = Ret l.
Proof.
  intros Hfd E Ho Hp L N R Lb Ll.
  assert (G : forall p' b', zlen b' = n -> flen p' = zlen l -> ztake (zlen l + 1) b' = l ++ [0] -> getline p' (b' ++ g) = Ret l).
  { intros p' b' Lb' F T. unfold getline. rewrite F. replace (b' ++ g) with ([] ++ l ++ (0 :: zdrop (zlen l + 1) b') ++ g).
    - apply zreads_at; reflexivity.
    - cbn [app]. rewrite <- (firstn_skipn (Z.to_nat (zlen l + 1)) b') at 2. change (firstn (Z.to_nat (zlen l + 1)) b') with (ztake (zlen l + 1) b'). rewrite T. rewrite <- !app_assoc. reflexivity. }
  destruct R as [(r' & ->)|[-> Ne]].
  - destruct (readline_lf p l r' b g n) as (p' & b' & E1 & L1 & F1 & T1 & _); [split; [auto|split; [auto|split; [eauto|auto]]]|auto|auto|auto|]. exists p', (b' ++ g). auto.
  - rewrite app_nil_r in E. destruct (readline_last p l b g n) as (p' & b' & E1 & L1 & F1 & T1 & _); [split; [auto|split; [auto|split; [eauto|auto]]]|auto|auto|auto|auto|]. exists p', (b' ++ g). auto.
Qed.
Print Assumptions c51_getline.
Example c51_getline_ex : match readline_userbuf None None (mkFp 0 0 3 [97; 98; 10; 99] 0) [7; 7; 7; 7; 7; 7] 5 with Ret (0, p, b) => getline p b | _ => UB end = Ret [97; 98].
Proof. vm_compute. reflexivity. Qed.

(** C53: stringptrlist_tofile returns 1 exactly if the file holds all the lines; l is not empty *)
Theorem c53_tofile_success opened l ts ws r f : Forall2 holds l ts -> l <> [] -> stringptrlist_tofile opened l ws = Ret (r, f) -> r = 1 -> f = lines [10] ts.
Proof.
  intros H Ne E ->. destruct opened; [|discriminate E]. destruct (c53_tofile_prefix l ts ws H) as (r' & f' & E' & R); [rewrite E; discriminate|]. rewrite E in E'. injection E' as <- <-. destruct R as [[_ R]|[X _]]; [exact R|discriminate X].
Qed.
Print Assumptions c53_tofile_success.
Theorem c53_tofile_not_opened l ws : stringptrlist_tofile false l ws = Ret (0, []).
Proof. reflexivity. Qed.
Print Assumptions c53_tofile_not_opened.

(** C06: after sblist_free_items the list is as sblist_init leaves it *)
Theorem c06_free_items l : bits l <> 0 -> sblist_init (isz l) (bits l) = Ret (sblist_free_items l).
Proof. intros H. unfold sblist_init. now replace (bits l =? 0) with false by lia. Qed.
Print Assumptions c06_free_items.
Example c06_free_items_ex : sblist_free_items (mkSbl 4 2 1 2 [1; 2; 3; 4; 5; 6; 7; 8]) = mkSbl 4 2 0 0 [].
Proof. reflexivity. Qed.

(** C75: sblist_set replaces one item and nothing else *)
Theorem c75_set A (l : hsb A) x i d j : 0 <= i < zlen (hits l) -> 0 <= j ->
  zlen (hits (sb_set l x i)) = zlen (hits l) /\ znth d (hits (sb_set l x i)) j = if j =? i then x else znth d (hits l) j.
Proof.
  intros Hi Hj. unfold sb_set. replace (zlen (hits l) <=? i) with false by lia. cbn [hits with_items].
  destruct (zsplit i (hits l)) as (a & b & E & La); [lia|]. rewrite E in *. destruct b as [|y b]; [rewrite app_nil_r in Hi; lia|].
  subst i. rewrite ztake_app_exact. assert (X : zdrop (zlen a + 1) (a ++ y :: b) = b) by (replace (a ++ y :: b) with ((a ++ [y]) ++ b) by (now rewrite <- app_assoc); replace (zlen a + 1) with (zlen (a ++ [y])) by (zl; cbn; lia); apply zdrop_app_exact). rewrite X. clear X.
  split; [zl; lia|]. unfold znth. destruct (j =? zlen a) eqn:J.
  - rewrite app_nth2 by (unfold zlen in *; lia). replace (Z.to_nat j - length a)%nat with 0%nat by (unfold zlen in *; lia). reflexivity.
  - assert (K : (Z.to_nat j <> length a)%nat) by (unfold zlen in *; lia). destruct (Nat.lt_ge_cases (Z.to_nat j) (length a)).
    + now rewrite !app_nth1 by lia.
    + rewrite !app_nth2 by lia. destruct (Z.to_nat j - length a)%nat eqn:X; [lia|]. reflexivity.
Qed.
Print Assumptions c75_set.
Theorem c75_sptr_get l i : 0 <= i -> sptr_get l i = if i <? zlen (hits l) then Ret (znth 0 (hits l) i) else UB.
Proof. intros H. unfold sptr_get. destruct (i <? zlen (hits l)) eqn:E; [|reflexivity]. apply zread_ok. lia. Qed.
Print Assumptions c75_sptr_get.
Example c75_set_ex : let l := mkHsb 1 2 8 8 [5; 6; 7] in hits (sb_set l 9 1) = [5; 9; 7] /\ hits (sb_set l 9 3) = [5; 6; 7] /\ sptr_get l 2 = Ret 7 /\ sptr_get l 3 = UB.
Proof. repeat split. Qed.
(** the items always fit in the block that was asked for; positions are size_t *)
Definition pos_ok {A} (o : sop A) : Prop := match o with SInsert _ i | SDelete i | SSet _ i => 0 <= i | _ => True end.
Lemma len_ins A (xs : list A) x i : 0 <= i -> zlen (ztake i xs ++ x :: zdrop i xs) = zlen xs + 1.
Proof. intros _. unfold zlen, ztake, zdrop. rewrite app_length. cbn [List.length]. rewrite <- (firstn_skipn (Z.to_nat i) xs) at 3. rewrite app_length. lia. Qed.
Theorem c75_fits A (ops : list (sop A)) : forall h l h' l', 1 <= hblk l -> zlen (hits l) <= hcapa l -> Forall pos_ok ops -> srun h l ops = Ret (h', l') -> zlen (hits l') <= hcapa l' /\ hblk l' = hblk l.
Proof.
  assert (G : forall h (l : hsb A) h' l', 1 <= hblk l -> zlen (hits l) <= hcapa l -> sb_grow h l = Ret (true, h', l') -> hits l' = hits l /\ hblk l' = hblk l /\ zlen (hits l) + 1 <= hcapa l').
  { intros h l h' l' B L. unfold sb_grow. destruct (_ =? hcapa l) eqn:E; [|intros [= <- <-]; repeat split; lia].
    destruct (hrealloc h (hbuf l)) as [[t h1]| |]; [|discriminate|discriminate]. cbn [bind]. destruct (t =? NULL); [discriminate|]. intros [= <- <-]. cbn. repeat split; lia. }
  assert (Gf : forall h (l : hsb A) h' l', sb_grow h l = Ret (false, h', l') -> l' = l).
  { intros h l h' l'. unfold sb_grow. destruct (_ =? hcapa l); [|discriminate]. destruct (hrealloc h (hbuf l)) as [[t h1]| |]; [|discriminate|discriminate]. cbn [bind]. destruct (t =? NULL); [|discriminate]. now intros [= <- <-]. }
  induction ops as [|o ops IH]; intros h l h' l' B L F; [now intros [= <- <-]|]. cbn [srun]. inversion F as [|? ? Fo F']; subst.
  assert (S : forall h1 l1, zlen (hits l1) <= hcapa l1 -> hblk l1 = hblk l -> srun h1 l1 ops = Ret (h', l') -> zlen (hits l') <= hcapa l' /\ hblk l' = hblk l).
  { intros h1 l1 L1 B1 E. destruct (IH h1 l1 h' l') as [X Y]; [lia|exact L1|exact F'|exact E|]. split; [exact X|congruence]. }
  assert (D : forall (xs : list A) i, 0 <= i -> zlen (ztake i xs ++ zdrop (i + 1) xs) <= zlen xs).
  { intros xs i Hi. unfold zlen, ztake, zdrop. rewrite app_length, skipn_length, firstn_length. lia. }
  destruct o as [x|x i|i|x i| |]; cbn [pos_ok] in Fo.
  - unfold sb_add. destruct (sb_grow h l) as [[[[|] h1] l1]| |] eqn:E; try discriminate; cbn [bind].
    + destruct (G _ _ _ _ B L E) as (H1 & H2 & H3). apply S; cbn [hits with_items hcapa hblk]; [rewrite H1; zl; cbn; lia|exact H2].
    + apply Gf in E. subst l1. apply S; [exact L|reflexivity].
  - unfold sb_insert. destruct (sb_grow h l) as [[[[|] h1] l1]| |] eqn:E; try discriminate; cbn [bind].
    + destruct (G _ _ _ _ B L E) as (H1 & H2 & H3). apply S; cbn [hits with_items hcapa hblk]; [rewrite len_ins, H1 by exact Fo; lia|exact H2].
    + apply Gf in E. subst l1. apply S; [exact L|reflexivity].
  - cbn [bind]. unfold sb_delete. destruct (_ <? _); apply S; cbn [hits with_items hcapa hblk]; try reflexivity; [specialize (D (hits l) i Fo); lia|exact L].
  - cbn [bind]. unfold sb_set. destruct (zlen (hits l) <=? i) eqn:E; apply S; try reflexivity; [exact L|]. cbn [hits with_items hcapa]. unfold zlen, ztake, zdrop in *. rewrite app_length. cbn [List.length]. rewrite skipn_length, firstn_length. lia.
  - cbn [bind]. unfold sb_pop, sb_delete. destruct (0 <? _) eqn:E1; [|apply S; [exact L|reflexivity]]. apply Z.ltb_lt in E1. assert (Y : 0 <= zlen (hits l) - 1) by lia. specialize (D (hits l) _ Y). destruct (_ <? _); apply S; cbn [hits with_items hcapa hblk]; try reflexivity; [lia|exact L].
  - unfold sb_free_items. destruct (if hbuf l =? NULL then Ret h else hfree h (hbuf l)) as [h1| |]; [|discriminate|discriminate]. cbn [bind]. apply S; [cbn; lia|reflexivity].
Qed.
Print Assumptions c75_fits.
Example c75_fits_ex : match srun (mkHeap [] 4 [true; true]) (sb_init 2) [SAdd 5; SAdd 6; SInsert 7 0; SSet 8 2; SDelete 0; SPop] with Ret (_, l) => (hits l, hcapa l) | _ => ([], 0) end = ([5], 4).
Proof. reflexivity. Qed.
(** the same for a tglist *)
Theorem c75_tglist_fits A h (l : htg A) x pos ok h' l' : 0 <= pos -> zlen (tits l) <= tcapa l -> tg_insert h l x pos = Ret (ok, h', l') ->
  zlen (tits l') <= tcapa l' /\ zlen (tits l') = zlen (tits l) + (if ok : bool then 1 else 0) /\ (ok = true -> tcapa l < zlen (tits l) + 1 -> tcapa l' = if tcapa l =? 0 then 4 else 2 * tcapa l).
Proof.
  intros Hp L. unfold tg_insert, tg_grow. zpos. destruct (zlen (tits l) =? tcapa l) eqn:E.
  - destruct (hrealloc h (tbuf l)) as [[t h1]| |]; [|discriminate|discriminate]. cbn [bind]. destruct (t =? NULL); cbn [bind]; intros [= <- <- <-]; cbn [tits tcapa]; [repeat split; try lia; discriminate|].
    rewrite len_ins by exact Hp. destruct (tcapa l =? 0) eqn:Z0; repeat split; intros; lia.
  - cbn [bind]. intros [= <- <- <-]. cbn [tits tcapa]. rewrite len_ins by exact Hp. repeat split; intros; lia.
Qed.
Print Assumptions c75_tglist_fits.
Example c75_tglist_fits_ex : match tg_insert (mkHeap [3] 4 [true]) (mkHtg 3 4 [1; 2; 3; 4]) 9 1 with Ret (b, _, l) => (b, tits l, tcapa l) | _ => (false, [], 0) end = (true, [1; 9; 2; 3; 4], 8).
Proof. reflexivity. Qed.

(** C101: the hash function of the benchmark is the polynomial with base 31, modulo 2^32 *)
Theorem c101_x31 s : x31_hash s = fold_left (fun h c => 31 * h + c) s 0 mod 2 ^ 32.
Proof.
  assert (G : forall s h h', h = h' mod 2 ^ 32 -> x31 h s = fold_left (fun h c => 31 * h + c) s h' mod 2 ^ 32).
  { clear. induction s as [|c s IH]; intros h h' E; [exact E|]. cbn [x31 fold_left]. apply IH. unfold u32. change 4294967296 with (2 ^ 32). set (p := 2 ^ 32) in *.
    rewrite Zplus_mod_idemp_r, Zplus_mod_idemp_l. rewrite <- (Zplus_mod_idemp_l ((h * 32) mod p - h)), Zminus_mod_idemp_l, Zplus_mod_idemp_l. subst h.
    replace (h' mod p * 32 - h' mod p + c) with (h' mod p * 31 + c) by lia. rewrite <- Zplus_mod_idemp_l, Zmult_mod_idemp_l, Zplus_mod_idemp_l. f_equal. lia. }
  destruct s as [|c s]; [reflexivity|]. cbn [x31_hash fold_left]. apply G. unfold u32. now f_equal.
Qed.
Print Assumptions c101_x31.
Example c101_x31_ex : x31_hash (lit "hello") = 99162322 /\ x31_hash (lit "hello world") = 1794106052 /\ x31_hash [] = 0.
Proof. repeat split. Qed.

(** C90: the text of the usage *)
Theorem c90_usage_text : usage = lit "prog dir" ++ 10 :: lit "lists all files in dir. the output should be equivalent to" ++ 10 :: lit "find dir -name '*'" ++ 10 :: lit "at least regarding number of returned entries." ++ [10].
Proof. reflexivity. Qed.
Print Assumptions c90_usage_text.
