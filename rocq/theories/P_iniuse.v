(** Proofs for M_iniuse. *)
From Verif Require Import Base M_stringptr D_stringptr S_stringptr P_stringptr M_spl P_spl M_ini S_ini P_ini M_iniuse S_iniuse.

Lemma piece_inj d a b r r' : ~ In d a -> ~ In d b -> a ++ d :: r = b ++ d :: r' -> a = b /\ r = r' :> list Z.
Proof.
  revert b. induction a as [|x a IH]; intros [|y b] Na Nb E; cbn [app] in E.
  - now injection E.
  - injection E as -> _. exfalso. apply Nb. now left.
  - injection E as -> _. exfalso. apply Na. now left.
  - injection E as -> E. destruct (IH b) as [-> ->]; auto; intros I; [apply Na|apply Nb]; now right.
Qed.
Lemma join_inj d ps : forall ps', ps <> [] -> ps' <> [] -> Forall (fun p => ~ In d p) ps -> Forall (fun p => ~ In d p) ps' -> join [d] ps = join [d] ps' -> ps = ps'.
Proof.
  induction ps as [|p ps IH]; intros [|q qs] A B F G E; try congruence. inversion F as [|? ? Fp Fs]. inversion G as [|? ? Gq Gs]. subst.
  destruct ps as [|p2 ps]; destruct qs as [|q2 qs].
  - cbn [join] in E. congruence.
  - rewrite (join_cons [d] q) in E by congruence. cbn [join app] in E. exfalso. apply Fp. rewrite E. apply in_or_app. right. now left.
  - rewrite (join_cons [d] p) in E by congruence. cbn [join app] in E. exfalso. apply Gq. rewrite <- E. apply in_or_app. right. now left.
  - rewrite !join_cons in E by congruence. cbn [app] in E. apply piece_inj in E as [-> E]; auto. f_equal. apply IH; auto; congruence.
Qed.
Lemma lines_join ls : flat_map (fun l => l ++ [10]) ls = join [10] (ls ++ [[]]).
Proof.
  induction ls as [|l ls IH]; [reflexivity|]. cbn [flat_map app]. rewrite join_cons by (destruct ls; cbn [app]; congruence). now rewrite IH, <- app_assoc.
Qed.
(** every piece is in its place, a NUL behind it *)
Definition line_at (s : sp) (t : list Z) : Prop := holds s t /\ zread (sb s) (so s + sz s) = Ret 0.
Lemma places_ok post o n ps : forall pre, zlen (pre ++ join [0] ps ++ 0 :: post) < 2 ^ 63 ->
  Forall2 line_at (entries (mkSp (pre ++ join [0] ps ++ 0 :: post) o n) (places (zlen pre) 1 ps)) ps.
Proof.
  induction ps as [|p ps IH]; intros pre L; [constructor|]. cbn [places entries map]. constructor.
  - cbn [sb fst snd]. destruct ps as [|p2 ps].
    + cbn [join] in *. split; [exists pre, (0 :: post); repeat split; assumption|]. cbn [sb so sz]. rewrite app_assoc. apply zread_at. zl. reflexivity.
    + rewrite join_cons in * by congruence. cbn [app] in *. rewrite <- !app_assoc in *. cbn [app] in *. split; [eexists pre, _; repeat split; assumption|]. cbn [sb so sz]. rewrite app_assoc. apply zread_at. zl. reflexivity.
  - destruct ps as [|p2 ps]; [constructor|]. rewrite join_cons in * by congruence. specialize (IH (pre ++ p ++ [0])). cbn [sb] in *. revert IH. replace (zlen (pre ++ p ++ [0])) with (zlen pre + zlen p + 1) by (zl; lia). rewrite <- !app_assoc in *. cbn [app] in *. intros IH. apply IH. exact L.
Qed.
Lemma F2_impl {A B} (P Q : A -> B -> Prop) l l' : (forall x y, P x y -> Q x y) -> Forall2 P l l' -> Forall2 Q l l'.
Proof. induction 2; constructor; auto. Qed.

(** ** sections of the lines of an ini file *)
Lemma header_line nt n : ~ In 93 n -> ~ In 93 nt -> header nt ([91] ++ n ++ [93]) = eqs n nt.
Proof.
  intros N Nt. unfold header, eqs. destruct (list_eq_dec Z.eq_dec n nt) as [->|D].
  - rewrite ztake_all by (zl; lia). destruct (list_eq_dec _ _ _) as [|X]; [reflexivity|]. now elim X.
  - destruct (list_eq_dec _ _ _) as [X|X]; [|reflexivity]. exfalso. apply D. pose proof (zlen_nonneg nt).
    assert (E : [91] ++ n ++ [93] = (91 :: nt ++ [93]) ++ zdrop (zlen nt + 2) ([91] ++ n ++ [93])) by (rewrite <- X; symmetry; apply ztake_zdrop).
    generalize dependent (zdrop (zlen nt + 2) ([91] ++ n ++ [93])). intros w E. cbn [app] in E. injection E as E. rewrite <- app_assoc in E. cbn [app] in E. apply piece_inj in E as [E _]; auto.
Qed.
Lemma entry_opens e : key_ok (fst e) -> opens (entry_text e) = false.
Proof. destruct e as [k v]. unfold key_ok, entry_text. cbn [fst snd]. intros [_ H]. destruct k as [|c k]; cbn [app opens hd] in *; [reflexivity|]. lia. Qed.
Lemma opens_header nt l : opens l = false -> header nt l = false.
Proof. intros H. destruct (header nt l) eqn:E; [|reflexivity]. apply header_opens in E. congruence. Qed.
Lemma sections_skip nt es r : Forall (fun e => key_ok (fst e)) es -> forall i, sections nt i (map entry_text es ++ r) = sections nt (i + zlen es) r.
Proof.
  induction 1 as [|e es He F IH]; intros i; [cbn [map app]; f_equal; cbn; lia|]. cbn [map app sections]. rewrite opens_header by now apply entry_opens. rewrite IH. f_equal. rewrite zlen_cons. lia.
Qed.
Lemma body_entries es r : Forall (fun e => key_ok (fst e)) es -> body (map entry_text es ++ r) = map entry_text es ++ body r.
Proof. induction 1 as [|e es He F IH]; [reflexivity|]. cbn [map app body]. now rewrite entry_opens, IH by assumption. Qed.
Definition blank (r : list (list Z)) : Prop := r = [] \/ r = [[]].
(** the first section of that name: its place in the lines, and its lines *)
Lemma first_section nt f : ~ In 93 nt -> Forall (fun s => name_ok (fst s) /\ Forall (fun e => key_ok (fst e)) (snd s)) f -> forall i,
  match find (fun s => eqs (fst s) nt) f with
  | None => sections nt i (ini_lines f ++ [[]]) = []
  | Some s => exists a b r, ini_lines f ++ [[]] = a ++ (map entry_text (snd s) ++ r) ++ b /\ blank r /\ 1 <= zlen a /\
      hd (0, 0) (sections nt i (ini_lines f ++ [[]])) = (i + zlen a, zlen (snd s) + zlen r)
  end.
Proof.
  intros Nt. induction 1 as [|s f [Hn Hk] F IH]; intros i; [cbn; unfold header; destruct (list_eq_dec _ _ _) as [X|]; [|reflexivity]; exfalso|].
  { assert (Z : ztake (zlen nt + 2) (@nil Z) = []) by (unfold ztake; apply firstn_nil). rewrite Z in X. discriminate X. }
  destruct s as [n es]. cbn [fst snd] in *. unfold ini_lines. cbn [flat_map find fst]. fold (ini_lines f). unfold section_lines. cbn [fst snd]. rewrite <- app_assoc, <- app_comm_cons. cbn [sections]. change ([91] ++ n ++ [93]) with ([91] ++ n ++ [93]). change (91 :: n ++ [93]) with ([91] ++ n ++ [93]). rewrite (header_line nt n Hn Nt). destruct (eqs n nt) eqn:E.
  - cbn [hd snd]. rewrite body_entries by assumption. destruct f as [|[n2 e2] f].
    + exists [[91] ++ n ++ [93]], [], [[]]. cbn [ini_lines flat_map app body opens]. rewrite app_nil_r. split; [reflexivity|]. split; [now right|]. split; [cbn; lia|]. f_equal; zl; rewrite ?zlen_map; reflexivity.
    + exists [[91] ++ n ++ [93]], (ini_lines ((n2, e2) :: f) ++ [[]]), []. rewrite app_nil_r. split; [reflexivity|]. split; [now left|]. split; [cbn; lia|]. cbn [ini_lines flat_map section_lines app body opens]. cbn [Z.eqb Pos.eqb]. f_equal; zl; rewrite ?zlen_map; change (zlen []) with 0; lia.
  - rewrite sections_skip by assumption. specialize (IH (i + 1 + zlen es)). destruct (find _ f) as [s|]; [|exact IH]. destruct IH as (a & b & r & E1 & Br & La & H). exists (([91] ++ n ++ [93]) :: map entry_text es ++ a), b, r. split; [rewrite E1; cbn [app]; rewrite <- !app_assoc; reflexivity|]. split; [exact Br|]. pose proof (zlen_nonneg es). assert (X : zlen (([91] ++ n ++ [93]) :: map entry_text es ++ a) = 1 + zlen es + zlen a) by (rewrite zlen_cons, zlen_app, zlen_map; lia). rewrite X. split; [lia|]. rewrite H. f_equal. lia.
Qed.
Lemma assigns_entry k e v : ~ In 61 k -> key_ok (fst e) -> (assigns k (entry_text e) v <-> fst e = k /\ snd e = v).
Proof.
  intros N [M _]. destruct e as [k' v']. unfold assigns, entry_text. cbn [fst snd app] in *. split.
  - intros E. apply piece_inj in E as [-> ->]; auto.
  - intros [-> ->]. reflexivity.
Qed.
Lemma assigns_nil k v : ~ assigns k [] v.
Proof. unfold assigns. destruct k; discriminate. Qed.
Lemma find_first {A} (p : A -> bool) l : match find p l with
  | Some x => exists a b, l = a ++ x :: b /\ p x = true /\ Forall (fun y => p y = false) a
  | None => Forall (fun y => p y = false) l end.
Proof.
  induction l as [|y l IH]; cbn [find]; [constructor|]. destruct (p y) eqn:E; [exists [], l; auto|]. destruct (find p l) as [x|].
  - destruct IH as (a & b & -> & H & F). exists (y :: a), b. auto.
  - auto.
Qed.
Lemma znth_in_mid {A} (d : A) a m b j : 0 <= j < zlen m -> znth d (a ++ m ++ b) (zlen a + j) = znth d m j.
Proof. intros H. zpos. unfold znth. rewrite app_nth2 by (unfold zlen in *; lia). rewrite app_nth1 by (unfold zlen in *; lia). f_equal. unfold zlen in *. lia. Qed.

Lemma value_in_section key kt ini ps (s : list Z * list (list Z * list Z)) a b r : holds key kt -> ~ In 61 kt -> Forall2 line_at ini ps -> ps = a ++ (map entry_text (snd s) ++ r) ++ b -> blank r -> zlen ps < 2 ^ 63 -> Forall (fun e => key_ok (fst e)) (snd s) ->
  exists q, iniparser_getvalue ini (zlen a, zlen (snd s) + zlen r) key = Ret q /\
  match option_map snd (find (fun e => eqs (fst e) kt) (snd s)) with
  | Some v => exists x, q = Some x /\ line_at x v
  | None => q = None
  end.
Proof.
  intros Hk Nk P2 E1 Br Lp Ks. assert (Hi : Forall2 holds ini ps) by (eapply F2_impl; [|exact P2]; intros ? ? X; apply X).
  unfold iniparser_getvalue. cbn [fst]. unfold iniparser_getvalue_at. cbn [fst snd]. cbv zeta.
  assert (Ls : zlen ps = zlen a + (zlen (snd s) + zlen r) + zlen b). { rewrite E1. zl. rewrite ?zlen_map. lia. }
  pose proof (zlen_nonneg a). pose proof (zlen_nonneg (snd s)). pose proof (zlen_nonneg r). pose proof (zlen_nonneg b). rewrite u64_id by lia.
  destruct (value_loop_ok key kt ini ps Hk Hi (zlen a + (zlen (snd s) + zlen r)) (S (Z.to_nat (zlen a + (zlen (snd s) + zlen r) - zlen a))) (zlen a) ltac:(lia) ltac:(lia)) as (q & -> & Q). cbn [bind].
  (* the lines of the section *)
  assert (Ln : forall j, 0 <= j < zlen (snd s) + zlen r -> znth [] ps (zlen a + j) = znth [] (map entry_text (snd s) ++ r) j).
  { intros j Hj. rewrite E1. apply znth_in_mid. zl. rewrite ?zlen_map. lia. }
  assert (Le : forall ea e eb, snd s = ea ++ e :: eb -> znth [] (map entry_text (snd s) ++ r) (zlen ea) = entry_text e).
  { intros ea e eb Es. rewrite Es, map_app, <- app_assoc. cbn [map app]. rewrite <- (zlen_map entry_text ea). apply znth_app_exact. }
  assert (Lr : forall j v, zlen (snd s) <= j < zlen (snd s) + zlen r -> ~ assigns kt (znth [] ps (zlen a + j)) v).
  { intros j v Hj. rewrite Ln by lia. destruct Br as [-> | ->]; [cbn in Hj; lia|]. change (zlen [[]]) with 1 in *. replace j with (zlen (map entry_text (snd s))) by (rewrite zlen_map; lia). rewrite znth_app_exact. apply assigns_nil. }
  assert (La' : forall j v, 0 <= j < zlen (snd s) -> assigns kt (znth [] ps (zlen a + j)) v -> exists ea e eb, snd s = ea ++ e :: eb /\ zlen ea = j /\ fst e = kt /\ snd e = v).
  { intros j v Hj A. pose proof (zsplit1 ([], []) j (snd s) Hj) as Es. assert (Lea : zlen (ztake j (snd s)) = j) by (apply zlen_ztake; lia). revert Es Lea. generalize (ztake j (snd s)) (zdrop (j + 1) (snd s)). intros ea eb Es Lea. rewrite Ln, <- Lea, (Le ea _ eb Es) in A by lia. apply assigns_entry in A; [|assumption|].
    - exists ea, (znth ([], []) (snd s) j), eb. destruct A. auto.
    - rewrite Forall_forall in Ks. apply Ks. rewrite Es at 2. apply in_or_app. right. now left. }
  pose proof (find_first (fun e => eqs (fst e) kt) (snd s)) as W. destruct (find (fun e => eqs (fst e) kt) (snd s)) as [e|]; cbn [option_map].
  - destruct W as (ea & eb & Es & Pe & Fa). assert (Ek : fst e = kt) by (unfold eqs in Pe; destruct (list_eq_dec _ _ _); congruence). assert (Ae : assigns kt (znth [] ps (zlen a + zlen ea)) (snd e)).
    { rewrite Ln by (rewrite Es; zl; zpos; lia). rewrite (Le ea e eb Es). apply assigns_entry; auto. rewrite Forall_forall in Ks. apply Ks. rewrite Es. apply in_or_app. right. now left. }
    pose proof (zlen_nonneg ea). assert (Lea : zlen ea < zlen (snd s)) by (rewrite Es; zl; zpos; lia).
    destruct q as [[n v]|]; [|exfalso; eapply (Q (zlen a + zlen ea)); [lia|lia|exact Ae]].
    destruct Q as (Q1 & Q2 & (vt & Q3 & Q4 & Q5) & Q6). cbn [option_map snd].
    assert (Enn : n = zlen a + zlen ea).
    { destruct (Z_lt_dec n (zlen a + zlen ea)) as [X|X].
      - exfalso. replace n with (zlen a + (n - zlen a)) in Q3 by lia. destruct (La' (n - zlen a) vt ltac:(lia) Q3) as (ea' & e' & eb' & Es' & Lea' & Ek' & _). rewrite Es in Es'.
        assert (HIn : In e' ea). { assert (Z2 : nth_error (ea ++ e :: eb) (length ea') = Some e') by (rewrite Es', nth_error_app2, Nat.sub_diag by lia; reflexivity). rewrite nth_error_app1 in Z2 by (unfold zlen in *; lia). eapply nth_error_In; eassumption. }
        rewrite Forall_forall in Fa. specialize (Fa e' HIn). cbn in Fa. unfold eqs in Fa. destruct (list_eq_dec _ _ _); congruence.
      - destruct (Z.eq_dec n (zlen a + zlen ea)); [assumption|]. exfalso. eapply (Q6 (zlen a + zlen ea)); [lia|exact Ae]. }
    subst n. assert (vt = snd e). { unfold assigns in *. rewrite Q3 in Ae. apply app_inv_head in Ae. congruence. } subst vt. eexists. split; [reflexivity|]. exists v. split; [reflexivity|]. split; [exact Q4|].
    destruct Q5 as [T1 T2]. rewrite T1, T2. pose proof (Forall2_znth line_at (mkSp [] 0 0) [] ini ps (zlen a + zlen ea) P2) as P3. destruct P3 as [_ P3]; [rewrite (F2_len _ _ _ P2); lia|exact P3].
  - exists None. split; [|reflexivity]. destruct q as [[n v]|]; [|reflexivity]. exfalso. destruct Q as (Q1 & Q2 & (vt & Q3 & _ & _) & _). replace n with (zlen a + (n - zlen a)) in Q3 by lia. destruct (Z_lt_dec (n - zlen a) (zlen (snd s))) as [X|X].
    + destruct (La' (n - zlen a) vt ltac:(lia) Q3) as (ea' & e' & eb' & Es' & _ & Ek' & _). rewrite Forall_forall in W. assert (I : In e' (snd s)) by (rewrite Es'; apply in_or_app; right; now left). specialize (W e' I). cbn in W. unfold eqs in W. destruct (list_eq_dec _ _ _); congruence.
    + exact (Lr (n - zlen a) vt ltac:(lia) Q3).
Qed.
Lemma ini_ok_lookup junk text name key f nt kt : holds text (ini_text f) -> bytes (ini_text f) -> ini_ok f -> holds name nt -> holds key kt -> ~ In 93 nt -> ~ In 61 kt -> zlen (ini_text f) < 2 ^ 62 ->
  exists r, ini_lookup (Some junk) text name key = Ret r /\
  match ini_value f nt kt with
  | Some v => exists s, r = Some s /\ line_at s v
  | None => r = None
  end.
Proof.
  intros Ht Bt [F N] Hn Hk Nn Nk L. unfold ini_lookup. destruct (copy_ok junk text _ Ht) as (c & -> & (h & Lh & Ec)). cbn [bind].
  assert (Hc : holds_in c h (ini_text f) [0]). { subst c. split; [reflexivity|]. split; [now rewrite Lh|]. split; [reflexivity|]. cbn [sb]. zl. lia. }
  destruct (splitc_ok c h (ini_text f) 0 [] 10 Hc Bt ltac:(unfold byte; lia)) as (ps & Np & J & Fp & R). change (s8 10) with 10 in R. rewrite R. cbn [bind].
  assert (Eps : ps = ini_lines f ++ [[]]).
  { apply (join_inj 10); auto.
    - destruct (ini_lines f); cbn [app]; congruence.
    - eapply Forall_impl; [|exact Fp]. cbn. intros p P I. rewrite Forall_forall in P. now apply (P 10).
    - apply Forall_app. split; [exact N|]. constructor; [intros []|constructor].
    - rewrite J. unfold ini_text. apply lines_join. }
  assert (Lb : zlen (h ++ join [0] ps ++ [0]) < 2 ^ 63). { zl. rewrite (zlen_join_eq [0] [10] ps eq_refl), J. lia. }
  pose proof (places_ok [] (zlen h) (zlen (ini_text f)) ps h Lb) as P2. set (ini := entries _ _) in *. assert (Hi : Forall2 holds ini ps) by (eapply F2_impl; [|exact P2]; intros ? ? X; apply X).
  pose proof (section_at name nt Hn ini ps Hi 0 ltac:(pose proof (zlen_nonneg ps); lia)) as E. unfold iniparser_get_section. rewrite E. cbn [bind]. clear E. rewrite zdrop_0. rewrite Eps.
  pose proof (first_section nt f Nn F 0) as S1. unfold ini_value. pose proof (find_first (fun s => eqs (fst s) nt) f) as S0. destruct (find (fun s => eqs (fst s) nt) f) as [s|].
  2: { rewrite S1. cbn [hd]. exists None. split; [|reflexivity]. reflexivity. }
  destruct S1 as (a & b & r & E1 & Br & La & Eh). rewrite Eh, Z.add_0_l.
  assert (Lp : zlen ps < 2 ^ 62 + 2). { assert (Q : zlen ps <= zlen (ini_text f) + 1). { rewrite <- J, zlen_join by assumption. pose proof (zlen_nonneg (concat ps)). change (zlen [10]) with 1. lia. } lia. }
  destruct S0 as (fa & fb & Ef & _ & _). assert (Ks : Forall (fun e => key_ok (fst e)) (snd s)). { rewrite Forall_forall in F. apply (F s). rewrite Ef. apply in_or_app. right. now left. }
  apply (value_in_section key kt ini ps s a b r); auto; [now rewrite Eps|lia].
Qed.
