(** C19-C27: stringptr, stringptrlist, kvlist *)
From Verif Require Import Base Bits M_stringptr M_spl S_stringptr D_stringptr P_stringptr P_spl.

(** a stringptr for examples: the text between two guard bytes *)
Definition ex_sp (t : list Z) : sp := mkSp (9 :: t ++ [0; 8]) 1 (zlen t).
Lemma ex_sp_holds t : zlen t < 2 ^ 32 -> holds_in (ex_sp t) [9] t [0; 8].
Proof. intros H. split; [reflexivity|]. split; [reflexivity|]. split; [reflexivity|]. cbn [sb ex_sp]. zl. lia. Qed.

(** C19 *)
Theorem c19_find_first :
  forall what wt l ts, holds what wt -> Forall2 holds l ts ->
    (exists i, first_at wt ts i /\ stringptrlist_find l what = Ret i /\ stringptrlist_contains l what = Ret 1) \/
    (~ In wt ts /\ stringptrlist_find l what = Ret (-1) /\ stringptrlist_contains l what = Ret 0).
Proof.
  intros what wt l ts Hw F. unfold stringptrlist_contains, stringptrlist_find.
  destruct (find_from_ok what wt Hw l ts F 0 ltac:(lia)) as [(p & q & E & NI & R)|[NI R]]; rewrite R; cbn [bind].
  - left. exists (zlen p). split; [exists p, q; auto|]. split; [reflexivity|]. zpos. now replace (0 + zlen p =? -1) with false by lia.
  - right. auto.
Qed.
Print Assumptions c19_find_first.
Theorem c19_kv_find_first :
  forall V what wt (l : list (sp * V)) ts, holds what wt -> Forall2 (fun kv t => holds (fst kv) t) l ts ->
    (exists i v, first_at wt ts i /\ zread (map snd l) i = Ret v /\ kv_find l what = Ret (1, Some v)) \/
    (~ In wt ts /\ kv_find l what = Ret (0, None)).
Proof.
  intros V what wt l ts Hw F. destruct (kv_find_ok what wt l ts Hw F) as [(p & q & k & v & lp & lq & E & NI & -> & L & R)|H]; [|right; exact H].
  left. exists (zlen p), v. split; [exists p, q; auto|]. split; [|exact R]. rewrite map_app. cbn [map snd]. apply zread_at. now rewrite zlen_map.
Qed.
Print Assumptions c19_kv_find_first.
Example c19_example :
  let l := [ex_sp [1; 0]; ex_sp [1; 0; 2]; ex_sp [3]; ex_sp [1; 0; 2]] in
  stringptrlist_find l (ex_sp [1; 0; 2]) = Ret 1 /\ stringptrlist_find l (ex_sp [1]) = Ret (-1) /\
  kv_find (combine l [10; 20; 30; 40]) (ex_sp [1; 0; 2]) = Ret (1, Some 20).
Proof. vm_compute. auto. Qed.

(** C20: the buffer is pre ++ t ++ z :: post with z the terminator.  The pieces are where
    [places] says, the delimiters and z become 0, all else stays. *)
Theorem c20_splitc :
  forall buf pre t z post d, holds_in buf pre t (z :: post) -> bytes t -> byte d ->
  exists ps, join [d] ps = t /\ Forall (fun p => ~ In d p) ps /\ length ps = S (count_occ Z.eq_dec t d) /\
    stringptr_splitc buf (s8 d) = Ret (places (zlen pre) 1 ps, mkSp (pre ++ join [0] ps ++ 0 :: post) (zlen pre) (zlen t)).
Proof.
  intros buf pre t z post d H Bt Bd. destruct (splitc_ok buf pre t z post d H Bt Bd) as (ps & N & J & F & R).
  exists ps. split; [exact J|]. split.
  - eapply Forall_impl; [|exact F]. cbn. intros p Fp I. rewrite Forall_forall in Fp. now apply (Fp d).
  - split; [|exact R]. rewrite <- J, count_join by auto. destruct ps; [congruence|]. cbn. lia.
Qed.
Print Assumptions c20_splitc.
(** replacing by 0 changes the delimiters only: join [0] is the text with d mapped to 0 *)
Theorem c20_only_delimiters_change :
  forall d ps, Forall (fun p => ~ In d p) ps -> join [0] ps = map (fun c => if c =? d then 0 else c) (join [d] ps).
Proof.
  intros d. assert (M : forall p, ~ In d p -> map (fun c => if c =? d then 0 else c) p = p).
  { induction p as [|x p IH]; [reflexivity|]. cbn [In map]. intros N. rewrite IH by tauto. destruct (x =? d) eqn:E; auto. exfalso. apply N. left. lia. }
  induction ps as [|p ps IH]; [reflexivity|]. intros F. apply Forall_cons_iff in F as [F1 F2].
  destruct ps as [|p2 ps]; [cbn [join]; now rewrite M|]. rewrite (join_cons [0]), (join_cons [d]) by congruence. rewrite !map_app, M, IH by auto.
  cbn [map]. now rewrite Z.eqb_refl.
Qed.
Print Assumptions c20_only_delimiters_change.
Example c20_example :
  stringptr_splitc (ex_sp [58; 65; 58; 58; 200; 66]) (s8 58) =
    Ret ([(1, 0); (2, 1); (4, 0); (5, 2)], mkSp [9; 0; 65; 0; 0; 200; 66; 0; 8] 1 6) /\
  stringptr_splitc (ex_sp [65; 200; 66]) (s8 200) = Ret ([(1, 1); (3, 1)], mkSp [9; 65; 0; 66; 0; 8] 1 3).
Proof. vm_compute. auto. Qed.

(** C21: [cut] is the leftmost non-overlapping cutting; it is unique *)
Theorem c21_splits :
  forall buf pre t z post delim d, holds_in buf pre t (z :: post) -> holds delim d -> d <> [] ->
  exists ps, cut d t ps /\ (forall ps', cut d t ps' -> ps' = ps) /\ join d ps = t /\
    forall fuel, (S (length t) < fuel)%nat ->
    stringptr_splits fuel buf delim = Ret (places (zlen pre) (zlen d) ps, mkSp (pre ++ join (0 :: tl d) ps ++ 0 :: post) (zlen pre) (zlen t)).
Proof.
  intros buf pre t z post delim d H Hd Nd.
  destruct (splits_ok _ _ _ _ _ _ _ (S (S (length t))) H Hd Nd) as (ps & C & R); [lia|].
  exists ps. split; [exact C|]. split; [intros ps' C'; eapply cut_unique; eauto|]. split; [now apply cut_join|].
  intros fuel Hf. destruct (splits_ok _ _ _ _ _ _ _ fuel H Hd Nd Hf) as (ps' & C' & R'). rewrite R'.
  now rewrite (cut_unique _ _ _ Nd C _ C').
Qed.
Print Assumptions c21_splits.
Theorem c21_empty_delimiter_hangs :
  forall buf pre t z post delim, holds_in buf pre t (z :: post) -> holds delim [] -> forall fuel, stringptr_splits fuel buf delim = Fuel.
Proof. intros. eapply splits_empty; eauto. Qed.
Print Assumptions c21_empty_delimiter_hangs.
Example c21_example :
  stringptr_splits 20 (ex_sp [1; 1; 1; 2; 1; 1; 5]) (ex_sp [1; 1]) =
    Ret ([(1, 0); (3, 2); (7, 1)], mkSp [9; 0; 1; 1; 2; 0; 1; 5; 0; 8] 1 7) /\
  cut [1; 1] [1; 1; 1; 2; 1; 1; 5] [[]; [1; 2]; [5]].
Proof.
  split; [vm_compute; reflexivity|].
  assert (N : forall t i, occurs_at [1; 1] t i -> 0 <= i /\ ztake 2 (zdrop i t) = [1; 1]).
  { intros t i (p & q & -> & <-). split; [apply zlen_nonneg|]. rewrite zdrop_app_exact. reflexivity. }
  apply (CutAt [1; 1] [] [1; 2; 1; 1; 5]). { intros i Hi O. apply N in O. change (zlen (@nil Z)) with 0 in Hi. lia. }
  apply (CutAt [1; 1] [1; 2] [5]).
  { intros i Hi O. apply N in O as [O1 O2]. change (i < 2) in Hi. assert (i = 0 \/ i = 1) as [-> | ->] by lia; discriminate O2. }
  constructor. intros [i O]. pose proof (occurs_at_bound _ _ _ O) as B. change (0 <= i /\ i + 2 <= 1) in B. lia.
Qed.

(** C22: for every pattern that is not empty.  buf itself ends up cut into pieces (last component) *)
Theorem c22_replace :
  forall junk buf pre t z post what wt whit rt, holds_in buf pre t (z :: post) -> holds what wt -> wt <> [] -> holds whit rt ->
    (forall ps, cut wt t ps -> zlen (join rt ps) < 2 ^ 64 - 17) ->
  forall fuel, (S (length t) < fuel)%nat ->
  exists ps r, cut wt t ps /\
    stringptr_replace fuel (Some junk) buf what whit = Ret (Some r, mkSp (pre ++ join (0 :: tl wt) ps ++ 0 :: post) (zlen pre) (zlen t)) /\
    new_with r (join rt ps).
Proof. intros. eapply replace_ok; eauto. Qed.
Print Assumptions c22_replace.
Example c22_example :
  stringptr_replace 20 (Some (fun _ => 7)) (ex_sp [1; 1; 1; 2; 1; 1; 5]) (ex_sp [1; 1]) (ex_sp [3; 4; 6]) =
    Ret (Some (mkSp ([7; 7; 7; 7; 7; 7; 7; 7; 7; 7; 7; 7; 7; 7; 7; 7] ++ [3; 4; 6; 1; 2; 3; 4; 6; 5; 0]) 16 9),
         mkSp [9; 0; 1; 1; 2; 0; 1; 5; 0; 8] 1 7).
Proof. vm_compute. reflexivity. Qed.

(** C23 *)
Theorem c23_contains :
  forall h n ht nt, holds h ht -> holds n nt ->
  exists r, stringptr_contains h n = Ret r /\ (r = 1 /\ occurs nt ht \/ r = 0 /\ ~ occurs nt ht).
Proof. exact contains_ok. Qed.
Print Assumptions c23_contains.
Theorem c23_here :
  forall h n ht nt pos, holds h ht -> holds n nt -> 0 <= pos <= zlen ht ->
  exists r, stringptr_here h pos n = Ret r /\ (r = 1 /\ occurs_at nt ht pos \/ r = 0 /\ ~ occurs_at nt ht pos).
Proof. exact here_ok. Qed.
Print Assumptions c23_here.
Theorem c23_empty_needle_everywhere : forall h n ht, holds h ht -> holds n [] -> stringptr_contains h n = Ret 1.
Proof.
  intros h n ht Hh Hn. destruct (contains_ok h n ht [] Hh Hn) as (r & E & [[-> _]|[_ N]]); auto.
  exfalso. apply N. exists 0, [], ht. auto.
Qed.
Print Assumptions c23_empty_needle_everywhere.
(** beyond the end the unsigned difference wraps and stringptr_here reads out of bounds *)
Theorem c23_here_beyond_end_reads_outside :
  exists h n, holds h [1; 2] /\ holds n [3] /\ stringptr_here h 20 n = UB.
Proof.
  exists (ex_sp [1; 2]), (ex_sp [3]). split; [exists [9], [0; 8]; apply ex_sp_holds; vm_compute; reflexivity|].
  split; [exists [9], [0; 8]; apply ex_sp_holds; vm_compute; reflexivity|]. vm_compute. reflexivity.
Qed.
Print Assumptions c23_here_beyond_end_reads_outside.
Example c23_example :
  stringptr_contains (ex_sp [1; 1; 2; 3]) (ex_sp [1; 2; 3]) = Ret 1 /\ stringptr_contains (ex_sp [1; 1; 2; 3]) (ex_sp [2; 3; 0]) = Ret 0 /\
  stringptr_here (ex_sp [1; 1; 2; 3]) 1 (ex_sp [1; 2]) = Ret 1 /\ stringptr_here (ex_sp [1; 1; 2; 3]) 4 (ex_sp []) = Ret 1.
Proof. vm_compute. auto. Qed.

(** C24 *)
Theorem c24_chomp :
  forall s pre a b post, holds_in s pre (a ++ b) post -> Forall line_break b -> (a = [] \/ exists a0 c, a = a0 ++ [c] /\ ~ line_break c) ->
  stringptr_chomp s = Ret (zlen b, mkSp (pre ++ (a ++ zrepeat 0 (zlen b)) ++ post) (zlen pre) (zlen a)).
Proof. exact chomp_ok. Qed.
Print Assumptions c24_chomp.
(** every text splits as c24_chomp wants *)
Theorem c24_chomp_split_exists :
  forall t, exists a b, t = a ++ b /\ Forall line_break b /\ (a = [] \/ exists a0 c, a = a0 ++ [c] /\ ~ line_break c).
Proof.
  induction t as [|c t (a & b & -> & Fb & Ha)] using rev_ind; [exists [], []; auto|].
  assert (D : line_break c \/ ~ line_break c) by (unfold line_break; lia). destruct D as [D|D].
  - exists a, (b ++ [c]). split; [now rewrite app_assoc|]. split; [apply Forall_app; auto|exact Ha].
  - exists ((a ++ b) ++ [c]), []. split; [now rewrite app_nil_r|]. split; [constructor|]. right. eauto.
Qed.
Print Assumptions c24_chomp_split_exists.
Theorem c24_shiftleft :
  forall s pre a x b post count, holds_in s pre (a ++ b) post -> b ++ post = x :: tl (b ++ post) -> count = zlen b ->
  stringptr_shiftleft s count = Ret (1, mkSp (pre ++ a ++ 0 :: tl (b ++ post)) (zlen pre) (zlen a)).
Proof.
  intros s pre a x b post count (E & Ho & Hs & L) NE ->.
  pose proof (shiftleft_ok s pre a x (tl (b ++ post))) as H. revert Hs. zl. intros Hs. zpos.
  replace (sz s - zlen a) with (zlen b) in H by lia. rewrite Ho in H. apply H; auto; [|lia]. rewrite E, <- app_assoc. now rewrite <- NE.
Qed.
Print Assumptions c24_shiftleft.
Theorem c24_shiftright :
  forall s pre a b post, holds_in s pre (a ++ b) post ->
  exists s', stringptr_shiftright s (zlen a) = (1, s') /\ holds_in s' (pre ++ a) b post /\ sb s' = sb s.
Proof.
  intros s pre a b post (E & Ho & Hs & L). unfold stringptr_shiftright. revert Hs. zl. intros Hs. zpos.
  replace (_ <=? _) with true by lia. eexists. split; [reflexivity|]. split; [|reflexivity].
  split; [cbn [sb]; rewrite E; now rewrite <- !app_assoc|]. split; [cbn [so]; zl; lia|]. split; [cbn [sz]; lia|exact L].
Qed.
Print Assumptions c24_shiftright.
Theorem c24_shift_too_far :
  forall s count, sz s < count -> stringptr_shiftleft s count = Ret (0, s) /\ stringptr_shiftright s count = (0, s).
Proof. intros s count H. unfold stringptr_shiftleft, stringptr_shiftright. now replace (count <=? sz s) with false by lia. Qed.
Print Assumptions c24_shift_too_far.
Example c24_example :
  stringptr_chomp (ex_sp [65; 10; 66; 13; 10; 10]) = Ret (3, mkSp [9; 65; 10; 66; 0; 0; 0; 0; 8] 1 3) /\
  stringptr_chomp (ex_sp [10; 13]) = Ret (2, mkSp [9; 0; 0; 0; 8] 1 0) /\
  stringptr_shiftleft (ex_sp [1; 2; 3]) 2 = Ret (1, mkSp [9; 1; 0; 3; 0; 8] 1 1) /\
  stringptr_shiftright (ex_sp [1; 2; 3]) 2 = (1, mkSp [9; 1; 2; 3; 0; 8] 3 1).
Proof. vm_compute. auto. Qed.

(** C25 *)
Lemma s8_last c p q : byte c -> bytes q -> Forall (fun x => s8 x <> s8 c) q -> last_at c (p ++ c :: q) (zlen p).
Proof. intros Bc Bq F. exists p, q. split; auto. split; auto. intros I. rewrite Forall_forall in F. now apply (F c I). Qed.
Theorem c25_rchr :
  forall s t c, holds s t -> bytes t -> byte c ->
    (exists i, last_at c t i /\ stringptr_rchr s (s8 c) = Ret (Some i)) \/ (~ In c t /\ stringptr_rchr s (s8 c) = Ret None).
Proof.
  intros s t c H Bt Bc. destruct (rchr_ok s t (s8 c) H) as [(p & x & q & -> & Ex & F & R)|[F R]].
  - apply bytes_app in Bt as [_ Bq]. apply bytes_cons in Bq as [Bx Bq]. apply s8_inj in Ex; auto. subst x.
    left. exists (zlen p). split; [now apply s8_last|exact R].
  - right. split; [|exact R]. intros I. rewrite Forall_forall in F. now apply (F c I).
Qed.
Print Assumptions c25_rchr.
(** an int outside the range of char is never found *)
Theorem c25_rchr_not_a_char : forall s t c, holds s t -> bytes t -> ~ (-128 <= c < 128) -> stringptr_rchr s c = Ret None.
Proof.
  intros s t c H Bt Hc. destruct (rchr_ok s t c H) as [(p & x & q & -> & Ex & F & R)|[F R]]; auto.
  exfalso. apply bytes_app in Bt as [_ Bq]. apply bytes_cons in Bq as [Bx Bq]. unfold s8, byte in *. lia.
Qed.
Print Assumptions c25_rchr_not_a_char.
Theorem c25_getfilename :
  forall s t, holds s t -> bytes t ->
    (exists dir name, t = dir ++ 47 :: name /\ ~ In 47 name /\ getfilename s = Ret (Some (zlen dir + 1))) \/
    (~ In 47 t /\ getfilename s = Ret None).
Proof.
  intros s t H Bt. unfold getfilename. destruct (c25_rchr s t 47 H Bt) as [(i & (p & q & -> & N & <-) & R)|[N R]]; [unfold byte; lia| |].
  - change (s8 47) with 47 in R. left. exists p, q. rewrite R. auto.
  - change (s8 47) with 47 in R. right. rewrite R. auto.
Qed.
Print Assumptions c25_getfilename.
Example c25_example :
  stringptr_rchr (ex_sp [1; 200; 2; 200; 3]) (-56) = Ret (Some 3) /\ stringptr_rchr (ex_sp [1; 200]) 200 = Ret None /\
  getfilename (ex_sp [47; 97; 47; 98; 99]) = Ret (Some 3) /\ getfilename (ex_sp [97]) = Ret None.
Proof. vm_compute. auto. Qed.

(** C26 *)
Theorem c26_hash_is_elf_hash :
  forall w s t, w = 2 ^ 32 \/ w = 2 ^ 64 -> holds s t -> stringptr_hash w s = Ret (elf_hash t).
Proof. exact hash_ok. Qed.
Print Assumptions c26_hash_is_elf_hash.
Theorem c26_hash_range : forall t, 0 <= elf_hash t < 2 ^ 28.
Proof. exact elf_hash_range. Qed.
Print Assumptions c26_hash_range.
(** "jdfgsdhfsdfsd 6445dsfsd7fg/*/+bfjsdgf%$^" has ELF hash 248446350 *)
Example c26_example :
  stringptr_hash (2 ^ 64) (ex_sp [106;100;102;103;115;100;104;102;115;100;102;115;100;32;54;52;52;53;100;115;102;115;100;55;102;103;47;42;47;43;98;102;106;115;100;103;102;37;36;94])
  = Ret 248446350.
Proof. vm_compute. reflexivity. Qed.

(** C27 *)
Theorem c27_eq : forall a b ta tb, holds a ta -> holds b tb -> exists r, stringptr_eq (Some a) (Some b) = Ret r /\ (r = 1 /\ ta = tb \/ r = 0 /\ ta <> tb).
Proof. intros a b ta tb Ha Hb. rewrite (eq_ok a b ta tb Ha Hb). eexists. split; [reflexivity|]. destruct (list_eq_dec Z.eq_dec ta tb); auto. Qed.
Print Assumptions c27_eq.
Theorem c27_eq_null : forall a, stringptr_eq None None = Ret 1 /\ stringptr_eq (Some a) None = Ret 0 /\ stringptr_eq None (Some a) = Ret 0.
Proof. intros a. auto. Qed.
Print Assumptions c27_eq_null.
Theorem c27_concat :
  forall junk self t args ts, holds self t -> Forall2 holds args ts -> zlen (t ++ concat ts) < 2 ^ 64 - 17 ->
  exists r, stringptr_concat (Some junk) self args = Ret (Some r) /\ new_with r (t ++ concat ts).
Proof. exact concat_ok. Qed.
Print Assumptions c27_concat.
Theorem c27_copy : forall junk s t, holds s t -> exists r, stringptr_copy (Some junk) s = Ret r /\ new_with r t.
Proof. exact copy_ok. Qed.
Print Assumptions c27_copy.
Theorem c27_strdup : forall junk s t, holds s t -> stringptr_strdup (Some junk) s = Ret (Some (t ++ [0])).
Proof. exact strdup_ok. Qed.
Print Assumptions c27_strdup.
Theorem c27_tostring :
  forall junk l ts, Forall2 holds l ts -> zlen (lines [10] ts) < 2 ^ 64 - 17 ->
  exists r, stringptrlist_tostring (Some junk) l = Ret (Some r) /\ new_with r (lines [10] ts).
Proof. intros. apply tostring_ok; auto. vm_compute. reflexivity. Qed.
Print Assumptions c27_tostring.
Theorem c27_tostring_dos :
  forall junk l ts, Forall2 holds l ts -> zlen (lines [13; 10] ts) < 2 ^ 64 - 17 ->
  exists r, stringptrlist_tostring_dos (Some junk) l = Ret (Some r) /\ new_with r (lines [13; 10] ts).
Proof. intros. apply tostring_ok; auto. vm_compute. reflexivity. Qed.
Print Assumptions c27_tostring_dos.
Theorem c27_out_of_memory :
  forall self args l s, stringptr_concat None self args = Ret None /\ stringptr_strdup None s = Ret None /\
    stringptrlist_tostring None l = Ret None /\ stringptrlist_tostring_dos None l = Ret None.
Proof. intros. auto. Qed.
Print Assumptions c27_out_of_memory.
(** stringptr_copy alone does not check for a failed allocation *)
Theorem c27_copy_out_of_memory_crashes : forall s, stringptr_copy None s = UB.
Proof. reflexivity. Qed.
Print Assumptions c27_copy_out_of_memory_crashes.
Example c27_example :
  let j := Some (fun _ => 7) in let hd := repeat 7 16 in
  stringptr_concat j (ex_sp [1; 2]) [ex_sp []; ex_sp [3]; ex_sp [4; 5]] = Ret (Some (mkSp (hd ++ [1; 2; 3; 4; 5; 0]) 16 5)) /\
  stringptrlist_tostring_dos j [ex_sp [1]; ex_sp []; ex_sp [2; 3]] = Ret (Some (mkSp (hd ++ [1; 13; 10; 13; 10; 2; 3; 13; 10; 0]) 16 9)).
Proof. vm_compute. auto. Qed.
