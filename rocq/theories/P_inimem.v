(** Proofs for M_inimem. *)
From Verif Require Import Base Cstr M_stringptr D_stringptr S_stringptr P_stringptr M_spl P_spl M_splmem S_splmem P_splmem M_fileparser M_spfile P_spfile M_ini S_ini P_ini M_iniuse S_iniuse P_iniuse
  M_format S_format M_fmtuse M_ininext S_ininext P_ininext M_inimem S_inimem.

Lemma kept_fmap {A B} (f : A -> B) sc xs ys : kept sc xs ys -> kept sc (map f xs) (map f ys).
Proof. induction 1; rewrite ?map_app; cbn [map]; try constructor; auto; unfold zlen in *; rewrite map_length; auto. Qed.
Lemma kept_forall {A} (P : A -> Prop) sc xs ys : kept sc xs ys -> Forall P xs -> Forall P ys.
Proof. induction 1; intros F; auto; [apply IHkept; now inversion F|]. apply Forall_app in F as [F1 F2]. apply Forall_app. auto. Qed.
(** what is kept of a list is kept of one that goes along with it *)
Lemma kept_F2 {A B} (P : A -> B -> Prop) sc xs ys ls : Forall2 P xs ls -> kept sc xs ys -> exists ks, kept sc ls ks /\ Forall2 P ys ks.
Proof.
  intros F K. assert (E : exists zs, xs = map fst zs /\ ls = map snd zs /\ Forall (fun z => P (fst z) (snd z)) zs).
  { clear K. induction F as [|x y xs ls H F (zs & -> & -> & G)]; [exists []; repeat split; constructor|]. exists ((x, y) :: zs). repeat split. constructor; auto. }
  destruct E as (zs & E1 & -> & G). destruct (kept_map fst sc xs ys K zs E1) as (ks & K' & ->). exists (map snd ks). split; [now apply kept_fmap|].
  apply (kept_forall _ _ _ _ K') in G. clear - G. induction G; cbn [map]; constructor; auto.
Qed.
Lemma kept_len {A} sc (xs ys : list A) : kept sc xs ys -> zlen ys <= zlen xs.
Proof. induction 1; zl; lia. Qed.
(** the split, and the lines the list points to *)
Lemma split_lines sc c h text : holds_in c h text [0] -> bytes text -> zlen h + zlen text < 2 ^ 62 + 20 ->
  exists ls ks ini sc', ls <> [] /\ join [10] ls = text /\ Forall (fun l => ~ In 10 l) ls /\ kept sc ls ks /\ zlen ks < 2 ^ 63 /\ zlen ks <= zlen text + 1 /\ Forall2 line_at ini ks /\
    exists l buf, splitc_mem (true :: sc) c 10 = Ret (sc', Some l, buf) /\ entries buf (pitems l) = ini.
Proof.
  intros Hc Bt L. destruct (splitc_ok c h text 0 [] 10 Hc Bt ltac:(unfold byte; lia)) as (ps & Np & J & Fp & Rs). change (s8 10) with 10 in Rs. destruct (splitc_mem_ok sc _ _ _ _ Rs) as (sc' & l & E & K).
  assert (Lb : zlen (h ++ join [0] ps ++ [0]) < 2 ^ 63). { zl. rewrite (zlen_join_eq [0] [10] ps eq_refl), J. pose proof (zlen_nonneg h). lia. }
  pose proof (places_ok [] (zlen h) (zlen text) ps h Lb) as P2.
  assert (K2 : kept sc (entries (mkSp (h ++ join [0] ps ++ [0]) (zlen h) (zlen text)) (places (zlen h) 1 ps)) (entries (mkSp (h ++ join [0] ps ++ [0]) (zlen h) (zlen text)) (pitems l))) by (now apply kept_fmap).
  destruct (kept_F2 _ _ _ _ _ P2 K2) as (ks & K3 & F3). pose proof (kept_len _ _ _ K3).
  assert (Lp : zlen ps <= zlen text + 1). { rewrite <- J, zlen_join by assumption. pose proof (zlen_nonneg (concat ps)). change (zlen [10]) with 1. lia. }
  eexists ps, ks, _, sc'. split; [exact Np|]. split; [exact J|]. split. { eapply Forall_impl; [|exact Fp]. cbn. intros p P I. rewrite Forall_forall in P. now apply (P 10). }
  split; [exact K3|]. pose proof (zlen_nonneg h). split; [lia|]. split; [lia|]. split; [exact F3|]. eexists l, _. split; [exact E|reflexivity].
Qed.
Lemma value_ok key kt ini ps sec : holds key kt -> Forall2 line_at ini ps -> zlen ps < 2 ^ 63 -> 0 <= fst sec -> 0 <= snd sec -> fst sec + snd sec <= zlen ps ->
  exists r, iniparser_getvalue ini sec key = Ret r /\ match first_value kt (lines_of ps sec) with Some v => exists s, r = Some s /\ line_at s v | None => r = None end.
Proof.
  intros Hk P2 L A B C. destruct sec as [s c]. cbn [fst snd] in *. unfold lines_of, iniparser_getvalue, iniparser_getvalue_at. cbn [fst snd]. cbv zeta. rewrite u64_id by lia.
  assert (E : ps = ztake s ps ++ ztake c (zdrop s ps) ++ zdrop c (zdrop s ps)) by (rewrite !ztake_zdrop; reflexivity).
  assert (La : zlen (ztake s ps) = s) by (apply zlen_ztake; lia). assert (Lm : zlen (ztake c (zdrop s ps)) = c) by (apply zlen_ztake; rewrite zlen_zdrop by lia; lia).
  set (es := ztake c (zdrop s ps)) in *. destruct (loop_first key kt ini ps Hk P2 es (ztake s ps) (zdrop c (zdrop s ps)) (S (Z.to_nat (s + c - s))) E ltac:(unfold zlen in Lm; lia)) as (q & Eq & Q). rewrite La, Lm in Eq. rewrite Eq. cbn [bind].
  eexists. split; [reflexivity|]. destruct (first_value kt es) as [v|]; [|now subst q]. destruct Q as (n & x & -> & Hx). exists x. auto.
Qed.
Lemma lookup_lines name nt key kt ini ps : holds name nt -> holds key kt -> Forall2 line_at ini ps -> zlen ps < 2 ^ 63 ->
  exists r, (let* sec := iniparser_get_section ini name in iniparser_getvalue ini sec key) = Ret r /\ match look nt kt ps with Some v => exists s, r = Some s /\ line_at s v | None => r = None end.
Proof.
  intros Hn Hk P2 L. assert (Hi : Forall2 holds ini ps) by (eapply F2_impl; [|exact P2]; intros ? ? X; apply X).
  unfold iniparser_get_section. rewrite (section_at name nt Hn ini ps Hi 0) by (pose proof (zlen_nonneg ps); lia). rewrite zdrop_0. cbn [bind]. unfold look. pose proof (sections_range nt ps 0) as R. pose proof (zlen_nonneg ps).
  destruct (sections nt 0 ps) as [|s ss]; cbn [hd].
  - destruct (value_ok key kt ini ps (0, 0) Hk P2 L) as (r & E & V); cbn [fst snd]; try lia. exists r. split; [exact E|]. exact V.
  - specialize (R s (or_introl eq_refl)). apply value_ok; auto; lia.
Qed.
Lemma lookup_mem_ok sc junk text t name nt key kt : holds text t -> bytes t -> zlen t < 2 ^ 62 -> holds name nt -> holds key kt ->
  exists ls ks, ls <> [] /\ join [10] ls = t /\ Forall (fun l => ~ In 10 l) ls /\ kept sc ls ks /\
  exists r, ini_lookup_mem (true :: sc) (Some junk) text name key = Ret r /\ match look nt kt ks with Some v => exists s, r = Some s /\ line_at s v | None => r = None end.
Proof.
  intros Ht Bt L Hn Hk. unfold ini_lookup_mem. destruct (copy_ok junk text _ Ht) as (c & -> & (h & Lh & Ec)). cbn [bind].
  assert (Hc : holds_in c h t [0]). { subst c. split; [reflexivity|]. split; [now rewrite Lh|]. split; [reflexivity|]. cbn [sb]. zl. lia. }
  destruct (split_lines sc c h t Hc Bt ltac:(lia)) as (ls & ks & ini & sc' & N & J & F & K & L1 & L2 & P2 & l & buf & E & Ei). rewrite E. cbn [bind]. rewrite Ei.
  exists ls, ks. repeat (split; [assumption|]). now apply lookup_lines.
Qed.
Lemma next_mem_ok sc junk rs content name nt key kt dest cbuf fuel : content <> [] -> bytes content -> zlen content < 2 ^ 62 -> Forall moves rs -> zlen content <= zlen rs ->
  holds name nt -> holds key kt -> zlen cbuf = 32 -> zlen dest = 4096 -> zlen content + 2 <= Z.of_nat fuel ->
  exists ls ks, ls <> [] /\ join [10] ls = content /\ Forall (fun l => ~ In 10 l) ls /\ kept sc ls ks /\
  next_main_mem fuel (true :: sc) (zlen content) true (Some junk) rs content name key dest cbuf =
    Ret (map (pair 1) (flat_map (fun s => shown (first_value kt (lines_of ks s))) (until_empty (sections nt 0 ks)))).
Proof.
  intros Nc Bt L M R Hn Hk C D F. unfold next_main_mem. destruct (fromfile_all junk rs content Nc ltac:(lia) M R) as (c & -> & (h & Lh & Ec)). cbn [bind].
  assert (Hc : holds_in c h content [0]). { subst c. split; [reflexivity|]. split; [now rewrite Lh|]. split; [reflexivity|]. cbn [sb]. zl. lia. }
  destruct (split_lines sc c h content Hc Bt ltac:(lia)) as (ls & ks & ini & sc' & N & J & Fl & K & L1 & L2 & P2 & l & buf & E & Ei). rewrite E. cbn [bind]. rewrite Ei.
  exists ls, ks. repeat (split; [assumption|]).
  assert (Hi : Forall2 holds ini ks) by (eapply F2_impl; [|exact P2]; intros ? ? X; apply X). pose proof (sections_count nt ks 0) as Sc. unfold zlen in L2, F.
  rewrite (next_loop_ok name nt key kt ini ks dest cbuf Hn Hk P2 ltac:(assumption) C D (length (sections nt 0 ks)) 0%nat fuel (0, 0)); [reflexivity|lia|lia|].
  unfold iniparser_get_next_section. cbn [fst snd]. change (u64 (0 + 0)) with 0. rewrite (section_at name nt Hn ini ks Hi 0) by (pose proof (zlen_nonneg ks); lia). rewrite zdrop_0. now destruct (sections nt 0 ks).
Qed.
(** more lines at the end do not change a value that was found *)
Lemma first_value_app k a b v : first_value k a = Some v -> first_value k (a ++ b) = Some v.
Proof. induction a as [|l a IH]; [discriminate|]. cbn [app first_value]. destruct (value_in k l); auto. Qed.
Lemma body_app a b : exists c, body (a ++ b) = body a ++ c.
Proof. induction a as [|l a (c & IH)]; [now exists (body b)|]. cbn [app body]. destruct (opens l); [now exists []|]. exists c. now rewrite IH. Qed.
Lemma body_take ls : ztake (zlen (body ls)) ls = body ls.
Proof. induction ls as [|l ls IH]; [reflexivity|]. cbn [body]. destruct (opens l); [reflexivity|]. rewrite zlen_cons. unfold ztake in *. pose proof (zlen_nonneg (body ls)). replace (Z.to_nat (1 + zlen (body ls))) with (S (Z.to_nat (zlen (body ls)))) by lia. cbn [firstn]. now rewrite IH. Qed.
(** the lines of the first section *)
Fixpoint first_lines (nt : list Z) (ls : list (list Z)) : option (list (list Z)) :=
  match ls with [] => None | l :: ls => if header nt l then Some (body ls) else first_lines nt ls end.
Lemma sections_lines nt ls : forall pre, match sections nt (zlen pre) ls with [] => first_lines nt ls = None | s :: _ => first_lines nt ls = Some (lines_of (pre ++ ls) s) end.
Proof.
  induction ls as [|l ls IH]; intros pre; [reflexivity|]. cbn [sections first_lines]. destruct (header nt l).
  - f_equal. unfold lines_of. cbn [fst snd]. replace (zlen pre + 1) with (zlen (pre ++ [l])) by (zl; reflexivity). replace (pre ++ l :: ls) with ((pre ++ [l]) ++ ls) by (now rewrite <- app_assoc). rewrite zdrop_app_exact. symmetry. apply body_take.
  - specialize (IH (pre ++ [l])). rewrite zlen_app in IH. change (zlen [l]) with 1 in IH. rewrite <- app_assoc in IH. exact IH.
Qed.
Lemma look_eq nt kt ls : look nt kt ls = match first_lines nt ls with None => None | Some b => first_value kt b end.
Proof. unfold look. pose proof (sections_lines nt ls []) as H. cbn [app] in H. change (zlen (@nil (list Z))) with 0 in H. destruct (sections nt 0 ls); now rewrite H. Qed.
Lemma look_app nt kt a b v : look nt kt a = Some v -> look nt kt (a ++ b) = Some v.
Proof.
  rewrite !look_eq. induction a as [|l a IH]; [discriminate|]. cbn [app first_lines]. destruct (header nt l); [|exact IH]. destruct (body_app a b) as (c & ->). apply first_value_app.
Qed.
