(** Proofs about iniparser. *)
From Verif Require Import Base Bits Cstr M_stringptr D_stringptr P_stringptr M_ini S_ini.

Lemma zsplit1' n (l : list Z) : 0 <= n < zlen l -> exists p q, l = p ++ znth 0 l n :: q /\ zlen p = n.
Proof. intros H. exists (ztake n l), (zdrop (n + 1) l). split; [now apply zsplit1|]. apply zlen_ztake. lia. Qed.
Lemma ztake_app_exact' (l l' : list Z) n : n = zlen l -> ztake n (l ++ l') = l.
Proof. intros ->. apply ztake_app_exact. Qed.
Lemma znth_app_exact' (l l' : list Z) x n : n = zlen l -> znth 0 (l ++ x :: l') n = x.
Proof. intros ->. apply znth_app_exact. Qed.
Lemma F2_len {A B} (P : A -> B -> Prop) l l' : Forall2 P l l' -> zlen l = zlen l'.
Proof. induction 1; zl; lia. Qed.
Lemma at_ok s t i : holds s t -> 0 <= i < zlen t -> at_ s i = Ret (znth 0 t i).
Proof. intros H L. destruct (zsplit1' i t ltac:(lia)) as (p & q & E & Lp). unfold at_. rewrite E in H. rewrite <- Lp at 1. rewrite (holds_read _ _ _ _ H). reflexivity. Qed.
Lemma memcmp_at' n h p m q nt i : holds n nt -> holds h (p ++ m ++ q) -> zlen m = zlen nt -> i = zlen p ->
  memcmp0 (sb h) (so h + i) (sb n) (so n) (sz n) = Ret (if list_eq_dec Z.eq_dec m nt then true else false).
Proof.
  intros Hn Hh L ->. unfold memcmp0. rewrite (holds_reads _ _ Hn). destruct (holds_size _ _ Hn) as [-> _]. rewrite <- L. rewrite (holds_sub _ _ _ _ Hh). reflexivity.
Qed.
Lemma hdr_ok line t name nt : holds line t -> holds name nt -> is_header line name = Ret (header nt t).
Proof.
  intros H Hn. destruct (holds_size _ _ H) as [S B]. destruct (holds_size _ _ Hn) as [Sn Bn]. unfold is_header, and_then. cbn [bind]. rewrite u64_id by lia. unfold header.
  destruct (Z.leb_spec (sz name + 2) (sz line)) as [L|L].
  2: { f_equal. destruct (list_eq_dec _ _ _) as [E|]; [|reflexivity]. apply (f_equal zlen) in E. rewrite ztake_all in E by lia. zl. lia. }
  rewrite (at_ok line t 0 H) by lia. cbn [bind]. assert (X : exists c m d q, t = c :: m ++ d :: q /\ zlen m = zlen nt).
  { destruct (zlen_cons_inv t ltac:(lia)) as (c & t' & ->). revert S. rewrite zlen_cons. intros S. destruct (zsplit1' (zlen nt) t' ltac:(zlia)) as (m & q & E & Lm). exists c, m, (znth 0 t' (zlen nt)), q. split; [now rewrite E at 1|assumption]. }
  destruct X as (c & m & d & q & -> & Lm). change (znth 0 (c :: m ++ d :: q) 0) with c.
  assert (Et : ztake (zlen nt + 2) (c :: m ++ d :: q) = c :: m ++ [d]).
  { replace (c :: m ++ d :: q) with ((c :: m ++ [d]) ++ q) by (cbn [app]; now rewrite <- app_assoc). apply ztake_app_exact'. zl. lia. }
  rewrite Et. destruct (Z.eqb_spec c 91) as [->|N].
  2: { destruct (list_eq_dec _ _ _) as [E|]; [congruence|reflexivity]. }
  rewrite (at_ok line _ _ H) by (zl; zpos; lia). cbn [bind]. replace (znth 0 (91 :: m ++ d :: q) (1 + sz name)) with d.
  2: { change (91 :: m ++ d :: q) with ((91 :: m) ++ d :: q). rewrite znth_app_exact'; [reflexivity|]. zl. lia. }
  destruct (Z.eqb_spec d 93) as [->|N].
  2: { destruct (list_eq_dec _ _ _) as [E|]; [|reflexivity]. injection E as E. apply app_inj_tail in E as [_ E]. congruence. }
  rewrite (memcmp_at' name line [91] m (93 :: q) nt 1 Hn H Lm eq_refl). f_equal. destruct (list_eq_dec Z.eq_dec m nt) as [->|N]; destruct (list_eq_dec _ _ _) as [E|E]; try reflexivity; [easy|].
  injection E as E. apply app_inj_tail in E as [E _]. congruence.
Qed.
Lemma open_ok line t : holds line t -> and_then (Ret (negb (sz line =? 0))) (let* c := at_ line 0 in Ret (c =? 91)) = Ret (opens t).
Proof.
  intros H. destruct (holds_size _ _ H) as [S B]. unfold and_then. cbn [bind]. destruct t as [|c t].
  - rewrite S. reflexivity.
  - rewrite S, zlen_cons. pose proof (zlen_nonneg t). replace (_ =? 0) with false by lia. cbn [negb]. rewrite (at_ok _ _ _ H) by (zl; zpos; lia). reflexivity.
Qed.
Lemma header_opens nt t : header nt t = true -> opens t = true.
Proof.
  unfold header. destruct (list_eq_dec _ _ _) as [E|]; [|discriminate]. intros _. destruct t as [|c t]; [unfold ztake in E; rewrite firstn_nil in E; discriminate E|]. pose proof (zlen_nonneg nt).
  unfold ztake in E. destruct (Z.to_nat (zlen nt + 2)) eqn:X; [lia|]. cbn [firstn] in E. injection E as -> _. reflexivity.
Qed.
Section Ini.
Variables (name : sp) (nt : list Z).
Hypothesis Hn : holds name nt.
Lemma loop_in suf : forall lsuf pre fuel start, Forall2 holds suf lsuf -> start <> 0 -> (length suf < fuel)%nat ->
  section_loop fuel (pre ++ suf) name (zlen pre) start = Ret (start, zlen pre - start + zlen (body lsuf)).
Proof.
  induction suf as [|s suf IH]; intros lsuf pre fuel start F N L; (destruct fuel as [|fuel]; [cbn in L; lia|]); inversion_clear F as [|? t ? ls H F']; cbn [section_loop].
  - rewrite app_nil_r. replace (_ <? _) with false by lia. replace (start =? 0) with false by lia. cbn [negb body]. f_equal. f_equal. zl. lia.
  - replace (zlen pre <? zlen (pre ++ s :: suf)) with true by (zl; zpos; lia). rewrite zread_at by reflexivity. cbn [bind]. unfold and_then at 1. cbn [bind]. replace (start =? 0) with false by lia. cbn [bind negb andb].
    rewrite (open_ok s t H). cbn [bind body]. destruct (opens t).
    + f_equal. f_equal. zl. lia.
    + change (s :: suf) with ([s] ++ suf). rewrite app_assoc. replace (zlen pre + 1) with (zlen (pre ++ [s])) by (zl; lia). rewrite (IH ls) by (auto; cbn in L; lia). f_equal. f_equal. zl. lia.
Qed.
Lemma loop_out suf : forall lsuf pre fuel, Forall2 holds suf lsuf -> (length suf < fuel)%nat ->
  section_loop fuel (pre ++ suf) name (zlen pre) 0 = Ret (hd (0, 0) (sections nt (zlen pre) lsuf)).
Proof.
  induction suf as [|s suf IH]; intros lsuf pre fuel F L; (destruct fuel as [|fuel]; [cbn in L; lia|]); inversion_clear F as [|? t ? ls H F']; cbn [section_loop].
  - rewrite app_nil_r. replace (_ <? _) with false by lia. reflexivity.
  - replace (zlen pre <? zlen (pre ++ s :: suf)) with true by (zl; zpos; lia). rewrite zread_at by reflexivity. cbn [bind]. unfold and_then at 1. cbn [bind Z.eqb]. rewrite (hdr_ok _ _ _ _ H Hn). cbn [bind].
    change (s :: suf) with ([s] ++ suf). rewrite app_assoc. replace (zlen pre + 1) with (zlen (pre ++ [s])) by (zl; lia). cbn [sections]. pose proof (zlen_nonneg pre). destruct (header nt t).
    + rewrite (loop_in suf ls) by (auto; try (zl; lia); cbn in L; lia). cbn [hd]. f_equal. f_equal; zl; lia.
    + cbn [negb andb]. unfold and_then. cbn [bind]. rewrite (IH ls) by (auto; cbn in L; lia). f_equal. f_equal. f_equal. zl. lia.
Qed.
Variables (ini : list sp) (ls : list (list Z)).
Hypothesis Hi : Forall2 holds ini ls.
Lemma len_eq : zlen ini = zlen ls.
Proof. eapply F2_len. eassumption. Qed.
Lemma section_at start : 0 <= start <= zlen ls -> iniparser_get_section_at ini name start = Ret (hd (0, 0) (sections nt start (zdrop start ls))).
Proof.
  intros L. rewrite <- len_eq in L. unfold iniparser_get_section_at. assert (E : start = zlen (ztake start ini)) by (rewrite zlen_ztake by lia; reflexivity).
  assert (F : Forall2 holds (zdrop start ini) (zdrop start ls)).
  { unfold zdrop. clear - Hi. revert ls Hi. generalize (Z.to_nat start) as k. induction ini as [|s ini' IH]; intros k l H; inversion_clear H; [rewrite !skipn_nil; constructor|]. destruct k; cbn [skipn]; [now constructor|now apply IH]. }
  pose proof (loop_out (zdrop start ini) (zdrop start ls) (ztake start ini) (S (length ini)) F) as Q. rewrite ztake_zdrop, <- E in Q. apply Q. unfold zdrop. rewrite skipn_length. lia.
Qed.
End Ini.
Lemma sections_body nt ls : forall i, sections nt i ls = sections nt (i + zlen (body ls)) (zdrop (zlen (body ls)) ls).
Proof.
  induction ls as [|l ls IH]; intros i; [reflexivity|]. cbn [body]. destruct (opens l) eqn:O; [now rewrite Z.add_0_r|]. cbn [sections]. destruct (header nt l) eqn:H; [apply header_opens in H; congruence|].
  rewrite IH. rewrite zlen_cons. pose proof (zlen_nonneg (body ls)). f_equal; [lia|]. unfold zdrop. rewrite (Z2Nat.inj_add 1) by lia. reflexivity.
Qed.
Lemma body_len ls : zlen (body ls) <= zlen ls.
Proof. induction ls as [|l ls IH]; cbn [body]; [lia|]. destruct (opens l); zl; [pose proof (zlen_nonneg ls); lia|lia]. Qed.
Lemma sections_next nt ls : forall i k s c, (k < length (sections nt i ls))%nat -> nth k (sections nt i ls) (0, 0) = (s, c) ->
  i < s /\ 0 <= c /\ s + c <= i + zlen ls /\ skipn (S k) (sections nt i ls) = sections nt (s + c) (zdrop (s + c - i) ls).
Proof.
  induction ls as [|l ls IH]; intros i k s c K E; cbn [sections] in *; [cbn in K; lia|]. pose proof (body_len ls). pose proof (zlen_nonneg (body ls)). pose proof (zlen_nonneg ls).
  assert (D : forall j, 0 <= j -> zdrop (j + 1) (l :: ls) = zdrop j ls). { intros j J. unfold zdrop. rewrite (Z2Nat.inj_add _ 1) by lia. rewrite Nat.add_comm. reflexivity. }
  rewrite zlen_cons. destruct (header nt l).
  - destruct k as [|k].
    + cbn [nth] in E. injection E as <- <-. split; [lia|]. split; [lia|]. split; [lia|]. cbn [skipn]. replace (i + 1 + zlen (body ls) - i) with (zlen (body ls) + 1) by lia. rewrite D by lia. apply sections_body.
    + cbn [nth length] in *. destruct (IH (i + 1) k s c ltac:(lia) E) as (A & B & C & G). split; [lia|]. split; [lia|]. split; [lia|]. change (skipn (S (S k)) (_ :: ?x)) with (skipn (S k) x). rewrite G. f_equal.
      replace (s + c - i) with ((s + c - (i + 1)) + 1) by lia. rewrite D by lia. reflexivity.
  - destruct (IH (i + 1) k s c K E) as (A & B & C & G). split; [lia|]. split; [lia|]. split; [lia|]. rewrite G. f_equal. replace (s + c - i) with ((s + c - (i + 1)) + 1) by lia. rewrite D by lia. reflexivity.
Qed.
Lemma hd_skip {A} (d : A) l : forall k, hd d (skipn k l) = nth k l d.
Proof. induction l as [|x l IH]; intros [|k]; try reflexivity. cbn [skipn nth]. apply IH. Qed.
Lemma next_ok name nt ini ls k : holds name nt -> Forall2 holds ini ls -> zlen ls < 2 ^ 63 -> (k < length (sections nt 0 ls))%nat ->
  iniparser_get_next_section ini name (nth k (sections nt 0 ls) (0, 0)) = Ret (nth (S k) (sections nt 0 ls) (0, 0)).
Proof.
  intros Hn Hi L K. destruct (nth k (sections nt 0 ls) (0, 0)) as [s c] eqn:E. destruct (sections_next nt ls 0 k s c K E) as (A & B & C & G). unfold iniparser_get_next_section. cbn [fst snd]. rewrite u64_id by lia.
  rewrite (section_at name nt Hn ini ls Hi) by lia. f_equal. rewrite Z.sub_0_r in G. rewrite <- G. apply hd_skip.
Qed.
Lemma sections_mem nt ls : forall i s, (exists c, In (s, c) (sections nt i ls)) <-> i + 1 <= s <= i + zlen ls /\ header nt (znth [] ls (s - 1 - i)) = true.
Proof.
  induction ls as [|l ls IH]; intros i s; cbn [sections].
  - split; [intros (c & [])|]. zl. lia.
  - rewrite zlen_cons. pose proof (zlen_nonneg ls). specialize (IH (i + 1) s).
    assert (Z0 : s = i + 1 -> znth [] (l :: ls) (s - 1 - i) = l). { intros ->. now replace (i + 1 - 1 - i) with 0 by lia. }
    assert (Z1 : i + 1 < s -> znth [] (l :: ls) (s - 1 - i) = znth [] ls (s - 1 - (i + 1))). { intros X. unfold znth. replace (s - 1 - i) with (Z.succ (s - 1 - (i + 1))) by lia. rewrite Z2Nat.inj_succ by lia. reflexivity. }
    destruct (header nt l) eqn:H'.
    + split.
      * intros (c & [E|I]).
        -- injection E as <- <-. split; [lia|]. now rewrite Z0.
        -- destruct IH as [IH _]. destruct (IH (ex_intro _ c I)) as [A B]. split; [lia|]. rewrite Z1 by lia. exact B.
      * intros [A B]. destruct (Z.eq_dec s (i + 1)) as [->|N]; [eexists; left; reflexivity|]. rewrite Z1 in B by lia. destruct IH as [_ IH]. destruct (IH ltac:(split; [lia|exact B])) as (c & I). exists c. now right.
    + rewrite IH. split; intros [A B].
      * split; [lia|]. rewrite Z1 by lia. exact B.
      * destruct (Z.eq_dec s (i + 1)) as [->|N]; [rewrite Z0 in B by lia; congruence|]. rewrite Z1 in B by lia. split; [lia|exact B].
Qed.
(** values *)
Lemma Forall2_znth {A B} (P : A -> B -> Prop) d e l l' i : Forall2 P l l' -> 0 <= i < zlen l -> P (znth d l i) (znth e l' i).
Proof.
  unfold znth. intros F. assert (X : forall k, (k < length l)%nat -> P (nth k l d) (nth k l' e)).
  { induction F; intros k K; cbn in K; [lia|]. destruct k; cbn [nth]; [assumption|]. apply IHF. lia. }
  intros L. apply X. unfold zlen in L. lia.
Qed.
Section Value.
Variables (key : sp) (kt : list Z) (ini : list sp) (ls : list (list Z)).
Hypothesis Hk : holds key kt.
Hypothesis Hi : Forall2 holds ini ls.
Lemma match_ok line t : holds line t -> exists m,
  and_then (Ret (sz key <? sz line)) (and_then (let* c := at_ line (sz key) in Ret (c =? 61)) (memcmp0 (sb line) (so line) (sb key) (so key) (sz key))) = Ret m /\
  if m then exists v, assigns kt t v /\ holds (mkSp (sb line) (so line + sz key + 1) (u64 (sz line - u64 (sz key + 1)))) v /\ tail_of line (mkSp (sb line) (so line + sz key + 1) (u64 (sz line - u64 (sz key + 1)))) else forall v, ~ assigns kt t v.
Proof.
  intros H. destruct (holds_size _ _ H) as [S B]. destruct (holds_size _ _ Hk) as [Sk Bk]. unfold and_then. cbn [bind]. destruct (Z.ltb_spec (sz key) (sz line)) as [L|L].
  2: { exists false. split; [reflexivity|]. intros v E. unfold assigns in E. rewrite E in S. revert S. zl. zpos. lia. }
  destruct (zsplit1' (zlen kt) t ltac:(lia)) as (p & q & E & Lp). set (d := znth 0 t (zlen kt)) in *. rewrite E in H. rewrite (at_ok _ _ _ H) by (zl; zpos; lia). cbn [bind]. rewrite znth_app_exact' by lia.
  destruct (Z.eqb_spec d 61) as [Ed|Ed].
  2: { exists false. split; [reflexivity|]. intros v X. unfold assigns in X. rewrite E in X. apply app_len_inv in X as [_ X]; [|assumption]. congruence. }
  pose proof (memcmp_at' key line [] p (d :: q) kt 0 Hk H Lp eq_refl) as M. rewrite Z.add_0_r in M. rewrite M. eexists. split; [reflexivity|]. destruct (list_eq_dec Z.eq_dec p kt) as [Ep|Ep].
  - exists q. split; [unfold assigns; now rewrite E, Ep, Ed|]. split; [|split; [reflexivity|]; cbn [so sz]; rewrite (u64_id (sz key + 1)) by lia; rewrite u64_id by lia; lia]. destruct H as (pre & post & A1 & A2 & A3 & A4). exists (pre ++ p ++ [d]), post. unfold holds_in. cbn [sb so sz]. rewrite A1.
    split; [rewrite <- !app_assoc; reflexivity|]. split; [zl; lia|]. split; [|now rewrite <- A1]. rewrite E in S. revert S. zl. intros S. pose proof (zlen_nonneg q). rewrite (u64_id (sz key + 1)) by lia. rewrite u64_id by lia. lia.
  - intros v X. unfold assigns in X. rewrite E in X. apply app_len_inv in X as [X _]; [|assumption]. congruence.
Qed.
Lemma value_loop_ok maxl fuel : forall i, 0 <= i -> Z.max 0 (maxl - i) < Z.of_nat fuel -> exists r, value_loop fuel ini maxl key i = Ret r /\
  match r with
  | Some (n, v) => i <= n < maxl /\ n < zlen ls /\ (exists vt, assigns kt (znth [] ls n) vt /\ holds v vt /\ tail_of (znth (mkSp [] 0 0) ini n) v) /\ forall n' vt, i <= n' < n -> ~ assigns kt (znth [] ls n') vt
  | None => forall n vt, i <= n < maxl -> n < zlen ls -> ~ assigns kt (znth [] ls n) vt
  end.
Proof.
  assert (Le : zlen ini = zlen ls) by (eapply F2_len; eassumption).
  induction fuel as [|fuel IH]; intros i I F; [lia|]. cbn [value_loop]. destruct (Z.ltb_spec i maxl) as [L|L].
  2: { exists None. split; [reflexivity|]. intros. lia. }
  destruct (IH (i + 1) ltac:(lia) ltac:(lia)) as (r & Er & R).
  assert (Skip : (i < zlen ls -> forall vt, ~ assigns kt (znth [] ls i) vt) -> match r with
    | Some (n, v) => i <= n < maxl /\ n < zlen ls /\ (exists vt, assigns kt (znth [] ls n) vt /\ holds v vt /\ tail_of (znth (mkSp [] 0 0) ini n) v) /\ forall n' vt, i <= n' < n -> ~ assigns kt (znth [] ls n') vt
    | None => forall n vt, i <= n < maxl -> n < zlen ls -> ~ assigns kt (znth [] ls n) vt end).
  { intros No. destruct r as [[n v]|].
    - destruct R as (A & B & C & D). split; [lia|]. split; [lia|]. split; [assumption|]. intros n' vt X. destruct (Z.eq_dec n' i) as [->|]; [apply No; lia|apply D; lia].
    - intros n vt X Y. destruct (Z.eq_dec n i) as [->|]; [apply No; lia|apply R; lia]. }
  unfold get_line. rewrite Le. destruct (Z.ltb_spec i (zlen ls)) as [L1|L1].
  - replace (0 <=? i) with true by lia. cbn [andb]. pose proof (Forall2_znth holds (mkSp [] 0 0) [] ini ls i Hi ltac:(lia)) as H. destruct (match_ok _ _ H) as (m & -> & M). cbn [bind]. destruct m.
    + eexists. split; [reflexivity|]. split; [lia|]. split; [lia|]. split; [exact M|]. intros. lia.
    + exists r. split; [exact Er|]. apply Skip. intros _. exact M.
  - rewrite andb_false_r. exists r. split; [exact Er|]. apply Skip. lia.
Qed.
End Value.
(** counting *)
Lemma lastnonws_ok s t : holds s t -> forall fuel n, (n < fuel)%nat -> Z.of_nat n <= zlen t -> exists r, lastnonws fuel s (Z.of_nat n) = Ret r /\ 0 <= r <= Z.of_nat n /\
  (r = 0 \/ iswhitespace (znth 0 t (r - 1)) = false) /\ forall i, r <= i < Z.of_nat n -> iswhitespace (znth 0 t i) = true.
Proof.
  intros H. induction fuel as [|fuel IH]; intros n F L; [lia|]. cbn [lastnonws]. unfold and_then. cbn [bind]. destruct n as [|n].
  - exists 0. split; [reflexivity|]. split; [lia|]. split; [now left|]. intros. lia.
  - replace (Z.of_nat (S n) =? 0) with false by lia. cbn [negb]. rewrite (at_ok _ _ _ H) by lia. cbn [bind]. replace (Z.of_nat (S n) - 1) with (Z.of_nat n) by lia. destruct (iswhitespace (znth 0 t (Z.of_nat n))) eqn:W.
    + destruct (IH n ltac:(lia) ltac:(lia)) as (r & E & A & B & C). exists r. split; [exact E|]. split; [lia|]. split; [exact B|]. intros i I. destruct (Z.eq_dec i (Z.of_nat n)) as [->|]; [assumption|apply C; lia].
    + exists (Z.of_nat (S n)). split; [reflexivity|]. split; [lia|]. split; [right; now replace (Z.of_nat (S n) - 1) with (Z.of_nat n) by lia|]. intros. lia.
Qed.
Lemma titled_ok t r : 3 <= zlen t -> znth 0 t 0 = 91 -> 0 <= r <= zlen t -> (r = 0 \/ iswhitespace (znth 0 t (r - 1)) = false) -> (forall i, r <= i < zlen t -> iswhitespace (znth 0 t i) = true) ->
  (r <> 0 /\ znth 0 t (r - 1) = 93) <-> titled t.
Proof.
  intros L Z0 R W B. split.
  - intros [Nr E]. split; [assumption|]. destruct (zsplit1' (r - 1) t ltac:(lia)) as (p & q & Et & Lp). rewrite E in Et. destruct p as [|c p].
    { cbn [app] in Et. rewrite Et in Z0. discriminate. }
    rewrite Et in Z0. cbn in Z0. subst c. exists p, q. split; [rewrite Et; reflexivity|]. apply Forall_forall. intros x I. apply (In_nth _ _ 0) in I as (k & K & X).
    specialize (B (r + Z.of_nat k)). rewrite Et in B. replace (znth 0 ((91 :: p) ++ 93 :: q) (r + Z.of_nat k)) with x in B.
    + assert (Lq : zlen ((91 :: p) ++ 93 :: q) = r + zlen q) by (zl; lia). unfold zlen in Lq at 2. unfold iswhitespace in B. lia.
    + rewrite znth_app2 by lia. unfold znth. rewrite Lp. replace (Z.to_nat _) with (S k) by lia. cbn [nth]. now symmetry.
  - intros [_ (p & ws & Et & F)]. assert (Lt : zlen t = zlen p + 2 + zlen ws) by (rewrite Et; zl; lia). pose proof (zlen_nonneg p). pose proof (zlen_nonneg ws).
    assert (X : znth 0 t (zlen p + 1) = 93). { rewrite Et. change (91 :: p ++ 93 :: ws) with ((91 :: p) ++ 93 :: ws). rewrite znth_app_exact'; [reflexivity|]. zl. lia. }
    assert (Y : forall i, zlen p + 2 <= i < zlen t -> iswhitespace (znth 0 t i) = true).
    { intros i I. rewrite Et. replace (91 :: p ++ 93 :: ws) with ((91 :: p ++ [93]) ++ ws) by (cbn [app]; now rewrite <- app_assoc). rewrite znth_app2 by (zl; lia). rewrite Forall_forall in F.
      assert (I' : In (znth 0 ws (i - zlen (91 :: p ++ [93]))) ws) by (apply znth_In; zl; lia). apply F in I'. unfold iswhitespace. lia. }
    assert (r = zlen p + 2).
    { destruct (Z_lt_dec r (zlen p + 2)).
      - specialize (B (zlen p + 1) ltac:(lia)). rewrite X in B. discriminate.
      - destruct (Z.eq_dec r (zlen p + 2)); [assumption|]. destruct W as [->|W]; [lia|]. rewrite Y in W by lia. discriminate. }
    subst r. split; [lia|]. now replace (zlen p + 2 - 1) with (zlen p + 1) by lia.
Qed.
Lemma count_range {A} P (l : list A) n : count P l n -> 0 <= n <= zlen l.
Proof. induction 1; zl; lia. Qed.
Lemma count_loop_ok ini : forall ls res, Forall2 holds ini ls -> 0 <= res -> res + zlen ls < 2 ^ 64 -> exists n, count titled ls n /\ count_loop ini res = Ret (res + n).
Proof.
  induction ini as [|s ini IH]; intros ls res F R L; inversion F as [|? t ? l H F' E1 E2]; subst; clear F; cbn [count_loop].
  { exists 0. split; [constructor|]. now rewrite Z.add_0_r. }
  destruct (holds_size _ _ H) as [Sz B]. pose proof (zlen_nonneg l). rewrite zlen_cons in L.
  assert (No : ~ titled t -> exists n, count titled (t :: l) n /\ count_loop ini res = Ret (res + n)).
  { intros N. destruct (IH l res F' R ltac:(lia)) as (n & C & E). exists n. split; [now constructor|assumption]. }
  unfold and_then. cbn [bind]. rewrite Sz. destruct (Z.leb_spec 3 (zlen t)) as [L3|L3].
  2: { cbn [bind]. apply No. intros [? _]. lia. }
  rewrite (at_ok _ _ _ H) by lia. cbn [bind]. destruct (Z.eqb_spec (znth 0 t 0) 91) as [Z0|Z0].
  2: { apply No. intros [_ (p & ws & E & _)]. rewrite E in Z0. now elim Z0. }
  destruct (lastnonws_ok s t H (S (Z.to_nat (zlen t))) (Z.to_nat (zlen t)) ltac:(lia) ltac:(lia)) as (r & E & A & W & Y). rewrite Z2Nat.id in * by lia. rewrite E. cbn [bind].
  pose proof (titled_ok t r L3 Z0 A W Y) as T. assert (Q : (if negb (r =? 0) then let* c := at_ s (r - 1) in Ret (c =? 93) else Ret false) = Ret (negb (r =? 0) && (znth 0 t (r - 1) =? 93))).
  { destruct (Z.eqb_spec r 0); [reflexivity|]. cbn [negb]. rewrite (at_ok _ _ _ H) by lia. reflexivity. }
  rewrite Q. cbn [bind]. destruct (negb (r =? 0) && (znth 0 t (r - 1) =? 93)) eqn:X.
  - rewrite u64_id by lia. destruct (IH l (res + 1) F' ltac:(lia) ltac:(lia)) as (n & C & En). exists (n + 1). split; [constructor; [apply T; lia|assumption]|]. rewrite En. f_equal. lia.
  - apply No. rewrite <- T. lia.
Qed.
