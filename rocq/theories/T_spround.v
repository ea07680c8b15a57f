(** C53: writing a list of strings and reading it back, for every list of strings without line feeds. *)
From Verif Require Import Base Cstr M_stringptr M_fileparser M_spfile S_stringptr S_fileparser D_stringptr P_stringptr P_fileparser P_spfile T_fileparser.

(** ---------- spec: reading stops in front of the first string that is empty or fills the buffer ---------- *)
Definition fits (t : list Z) : Prop := 1 <= zlen t < 1024.
Inductive up_to : list (list Z) -> list (list Z) -> Prop :=
  | UEnd : up_to [] []
  | UStop t ts : ~ fits t -> up_to (t :: ts) []
  | UTake t ts us : fits t -> up_to ts us -> up_to (t :: ts) (t :: us).

(** ---------- proof ---------- *)
Lemma fromfile_any : forall ts us, up_to ts us -> forall fuel mem p buf acc, at_rest p (lines [10] ts) -> Forall no_lf ts ->
  (length ts < fuel)%nat -> (length us <= length mem)%nat -> Forall (fun m => fst m <> None /\ snd m = true) mem -> zlen buf = 1024 ->
  spl_fromfile_loop fuel mem p buf acc = Ret (1, acc ++ map (fun t => mkSp (t ++ [0]) 0 (zlen t)) us).
Proof.
  unfold lines. induction 1 as [|t ts Nf|t ts us Bt U IH]; intros fuel mem p buf acc Hr Ft Hf Lm Fm Lb; (destruct fuel as [|fuel]; [lia|]); cbn [spl_fromfile_loop map concat] in *; unfold readline.
  - rewrite (readline_eof p buf 1024 Hr) by lia. cbn [bind]. change (-2 =? 0) with false. cbn [negb]. now rewrite app_nil_r.
  - apply Forall_cons_iff in Ft as [Nt Ft]. rewrite <- app_assoc in Hr. cbn [app] in Hr. rewrite app_nil_r. destruct (Z_lt_le_dec (zlen t) 1024) as [G|G].
    + destruct (readline_lf p t _ buf [] 1024 Hr Nt Lb ltac:(lia)) as (p' & b' & E & L1 & FL & T & R' & _). rewrite !app_nil_r in E. rewrite E. cbn [bind Z.eqb negb].
      rewrite FL. unfold fits in Nf. zpos. replace (zlen t =? 0) with true by lia. reflexivity.
    + destruct (zsplit 1024 t) as (c & r & -> & Lc); [lia|]. apply no_lf_app in Nt as [Nc _]. rewrite <- app_assoc in Hr.
      pose proof (readline_long p c _ buf [] 1024 Hr Nc Lc Lb ltac:(lia)) as E. rewrite !app_nil_r in E. rewrite E. cbn [bind]. change (-3 =? 0) with false. reflexivity.
  - apply Forall_cons_iff in Ft as [Nt Ft]. rewrite <- app_assoc in Hr. cbn [app] in Hr. unfold fits in Bt.
    destruct (readline_lf p t _ buf [] 1024 Hr Nt Lb ltac:(lia)) as (p' & b' & E & L1 & FL & T & R' & _). rewrite !app_nil_r in E. rewrite E. cbn [bind Z.eqb negb].
    rewrite FL. replace (zlen t =? 0) with false by lia. destruct mem as [|[mal ok] mem]; [cbn in Lm; lia|].
    apply Forall_cons_iff in Fm as [[M1 M2] Fm]. cbn in M1, M2. subst ok. destruct mal as [junk|]; [|congruence].
    assert (Hd : holds (mkSp b' 0 (zlen t)) t).
    { destruct (zsplit (zlen t + 1) b') as (x & y & -> & Lx); [lia|]. rewrite <- Lx in T. rewrite ztake_app_exact in T. subst x.
      exists [], (0 :: y). split; [cbn; now rewrite <- app_assoc|]. split; [reflexivity|]. split; [reflexivity|]. cbn [sb]. lia. }
    rewrite (strdup_ok junk _ t Hd). cbn [bind]. rewrite IH; auto; [|cbn in Hf; lia|cbn in Lm; lia]. now rewrite <- app_assoc.
Qed.
Lemma up_to_ex ts : exists us, up_to ts us.
Proof. induction ts as [|t ts (us & IH)]; [exists []; constructor|]. destruct (Z_le_dec 1 (zlen t)); [destruct (Z_lt_dec (zlen t) 1024)|]; [exists (t :: us); constructor; [split|]; auto| |]; exists []; constructor; unfold fits; lia. Qed.
Lemma up_to_all ts us : up_to ts us -> (us = ts <-> Forall fits ts).
Proof.
  induction 1 as [|t ts N|t ts us F U IH].
  - split; auto.
  - split; [discriminate|]. intros F. apply Forall_inv in F. contradiction.
  - split; [intros E; injection E as ->; constructor; [auto|apply IH; auto]|]. intros G. apply Forall_cons_iff in G as [_ G]. f_equal. now apply IH.
Qed.

(** both calls report success, whatever is lost; everything is restored exactly if every string has 1 to 1023 bytes *)
Theorem c53_roundtrip_exact :
  forall l ts ws fuel mem fd junk buf, Forall2 holds l ts -> length ws = (2 * length l)%nat -> Forall complete ws -> Forall (fun t => ~ In 10 t) ts -> zlen (lines [10] ts) < 2 ^ 63 ->
    fd <> 0 -> zlen buf = 1024 -> (length ts < fuel)%nat -> length mem = length ts -> Forall (fun m => fst m <> None /\ snd m = true) mem ->
  exists content l' us, stringptrlist_tofile true l ws = Ret (1, content) /\ stringptrlist_fromfile fuel mem fd junk buf content = Ret (1, l') /\
    Forall2 holds l' us /\ up_to ts us /\ (us = ts <-> Forall fits ts).
Proof.
  intros l ts ws fuel mem fd junk buf H L F Ft Lt Hfd Lb Hf Lm Fm. destruct (up_to_ex ts) as (us & U).
  assert (LU : (length us <= length ts)%nat) by (clear -U; induction U; cbn [length]; lia).
  exists (lines [10] ts), (map (fun t => mkSp (t ++ [0]) 0 (zlen t)) us), us. split; [now apply c53_tofile|]. split.
  { unfold stringptrlist_fromfile. rewrite (fromfile_any ts us U fuel mem _ buf [] (open_rest fd junk _ Hfd Lt) Ft Hf ltac:(lia) Fm Lb). reflexivity. }
  split; [|split; [auto|now apply up_to_all]].
  clear -U. induction U as [|t ts N|t ts us [B1 B2] _ IH]; constructor; auto. exists [], [0]. split; [reflexivity|]. split; [reflexivity|]. split; [reflexivity|]. cbn [sb]. zl. lia.
Qed.
Print Assumptions c53_roundtrip_exact.
Example c53_exact_ex : up_to [[65]; [66; 67]; []; [68]] [[65]; [66; 67]] /\ up_to [[65]] [[65]].
Proof. assert (fits [65]) by (split; reflexivity || (cbn; lia)). split; repeat constructor; auto; try (cbn; lia). intros [X _]. cbn in X. lia. Qed.
