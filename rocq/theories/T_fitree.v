(** C84 on whole directory trees: examples/find_identical_files.c. *)
From Verif Require Import Base M_ex S_ex P_ex2 M_fitree S_fitree D_fitree P_fitree.

(** when the callers happen to see 0 after the missing return: each common file of the two trees,
    at any depth, is printed once iff it is identical (argument i...) or is not (any other) *)
Theorem c84_tree : forall ls size opn c arg n d1 d2, both_slash d1 d2 -> trees ls size opn n d1 d2 ->
  exists ps, find_main ls size opn (fun _ _ => 0) n (c :: arg) d1 d2 = Ret (ps, 0) /\ NoDup ps /\
    forall p, In p ps <-> printed (fun d => snd (ls d)) (file opn) (c = 105) d1 d2 p.
Proof.
  intros ls size opn c arg n d1 d2 B T. unfold find_main, mode_of. rewrite zread_ok with (d := 0) by (rewrite zlen_cons; pose proof (zlen_nonneg arg); lia). change (znth 0 (c :: arg) 0) with c. cbn [bind].
  destruct (tree_ok ls size opn (if c =? 105 then 0 else 1) ltac:(destruct (c =? 105); auto) (fun _ _ => 0) n ltac:(reflexivity) d1 d2 B T) as (ps & E & N & H). exists ps. split; [exact E|]. split; [exact N|].
  intros p. rewrite H. assert (Q : (if c =? 105 then 0 else 1) = 0 <-> c = 105) by (destruct (Z.eqb_spec c 105); split; intros; try lia; auto).
  clear - Q. split; induction 1; try (now eapply PrSub; eauto); apply PrFile; auto; tauto.
Qed.
Print Assumptions c84_tree.

(** whatever they see: the same names in the same order, up to the end of the first common
    subdirectory after which the value is not 0; that value is what main returns *)
Theorem c84_tree_stops : forall ls size opn off c arg n d1 d2, both_slash d1 d2 -> trees ls size opn n d1 d2 ->
  exists ps qs r, find_main ls size opn off n (c :: arg) d1 d2 = Ret (ps, r) /\ find_main ls size opn (fun _ _ => 0) n (c :: arg) d1 d2 = Ret (qs, 0) /\
    ((ps = qs /\ r = off d1 d2 /\ forall e1 e2, below ls d1 d2 e1 e2 -> off e1 e2 = 0) \/
     (exists t e1 e2, qs = ps ++ t /\ below ls d1 d2 e1 e2 /\ r = off e1 e2 /\ r <> 0)).
Proof.
  intros ls size opn off c arg n d1 d2 B T. unfold find_main, mode_of. rewrite zread_ok with (d := 0) by (rewrite zlen_cons; pose proof (zlen_nonneg arg); lia). change (znth 0 (c :: arg) 0) with c. cbn [bind].
  assert (Hm : (if c =? 105 then 0 else 1) = 0 \/ (if c =? 105 then 0 else 1) = 1) by (destruct (c =? 105); auto). set (mode := if c =? 105 then 0 else 1) in *.
  destruct (tree_ok ls size opn mode Hm (fun _ _ => 0) n ltac:(reflexivity) d1 d2 B T) as (qs & E & _). destruct (tree_any ls size opn mode Hm off n d1 d2 qs B T E) as (ps & r & R & H). exists ps, qs, r. auto.
Qed.
Print Assumptions c84_tree_stops.

(** a common file of the same size that cannot be opened: its NULL is used *)
Theorem c84_unreadable_refuted : forall ls size opn mode off fuel d1 d2 f fl1 fl2, both_slash d1 d2 -> ls d1 = (0, f :: fl1) -> ls d2 = (0, fl2) -> In f fl2 -> ~ is_sub f ->
  size (in_dir d1 f) = size (in_dir d2 f) -> opn (in_dir d1 f) = None \/ opn (in_dir d2 f) = None -> tree_path ls size opn mode off (S fuel) d1 d2 = UB.
Proof.
  intros ls size opn mode off fuel d1 d2 f fl1 fl2 B E1 E2 I N Sz O. cbn [tree_path]. rewrite E1, E2. cbn [Z.eqb negb]. apply in_sub in I. rewrite I. cbn [negb]. rewrite names_in by exact B. destruct (endswithchar f 47) eqn:EF; [apply ends_sub in EF; contradiction|].
  rewrite Sz, Z.eqb_refl. cbn [negb]. unfold compare_opened. destruct O as [-> | ->]; [reflexivity|]. now destruct (opn (in_dir d1 f)).
Qed.
Print Assumptions c84_unreadable_refuted.

(** a directory that cannot be listed ends the whole search with the error *)
Theorem c84_unlisted : forall ls size opn mode off fuel d1 d2, fst (ls d1) <> 0 \/ (fst (ls d1) = 0 /\ fst (ls d2) <> 0) ->
  tree_path ls size opn mode off (S fuel) d1 d2 = Ret ([], if fst (ls d1) =? 0 then fst (ls d2) else fst (ls d1)).
Proof.
  intros ls size opn mode off fuel d1 d2 H. cbn [tree_path]. destruct (ls d1) as [r1 fl1], (ls d2) as [r2 fl2]. cbn [fst] in *. destruct (Z.eqb_spec r1 0) as [->|N1]; cbn [negb]; [|reflexivity]. destruct H as [H|[_ H]]; [lia|]. destruct (Z.eqb_spec r2 0); [lia|reflexivity].
Qed.
Print Assumptions c84_unlisted.

(** a: x, s/ with y; b: the same, y different; with 0 and with 7 after the missing return *)
Definition ex_ls (d : list Z) : Z * list (list Z) :=
  if zlen d =? 1 then (0, [[115; 47]; [120]]) else (0, [[121]]).
Definition ex_open (p : list Z) : option (list Z) := Some (if zlen p =? 3 then [1; 2] else [znth 0 p 0]).
Example c84_ex_tree : find_main ex_ls (fun p => zlen (file ex_open p)) ex_open (fun _ _ => 0) 2 [105; 0] [97] [98] = Ret ([[97; 47; 120]], 0) /\
  find_main ex_ls (fun p => zlen (file ex_open p)) ex_open (fun _ _ => 0) 2 [110; 0] [97] [98] = Ret ([[97; 47; 115; 47; 121]], 0) /\
  find_main ex_ls (fun p => zlen (file ex_open p)) ex_open (fun _ _ => 7) 2 [105; 0] [97] [98] = Ret ([], 7).
Proof. vm_compute. auto. Qed.
Example c84_ex_trees : both_slash [97] [98] /\ trees ex_ls (fun p => zlen (file ex_open p)) ex_open 2 [97] [98].
Proof.
  split.
  - split; [discriminate|]. split; [discriminate|]. split; intros (n & E); destruct n as [|a [|b n]]; discriminate.
  - assert (S1 : is_sub [115; 47]) by now exists [115]. assert (S2 : ~ is_sub [120]) by (intros (n & E); destruct n as [|a [|b n]]; discriminate). assert (S3 : ~ is_sub [121]) by (intros (n & E); destruct n as [|a [|b n]]; discriminate).
    assert (OP : forall f d1 d2, exists c1 c2, ex_open (in_dir d1 f) = Some c1 /\ ex_open (in_dir d2 f) = Some c2 /\ zlen (file ex_open (in_dir d1 f)) = zlen c1 /\ zlen (file ex_open (in_dir d2 f)) = zlen c2) by (intros; unfold file, ex_open; do 2 eexists; repeat split; reflexivity).
    cbn [trees]. split; [reflexivity|]. split; [reflexivity|]. split; [repeat constructor; cbn; intuition discriminate|]. split.
    { intros f [<-|[<-|[]]]; [exists [115]|exists [120]]; repeat split; try discriminate; cbn; auto; intuition discriminate. }
    intros f [<-|[<-|[]]] _; (split; intros Hs; [|apply OP]); [|contradiction].
    split; [reflexivity|]. split; [reflexivity|]. split; [repeat constructor; cbn; intuition discriminate|]. split.
    { intros f [<-|[]]. exists [121]. repeat split; try discriminate; cbn; auto; intuition discriminate. }
    intros f [<-|[]] _; (split; intros Hs'; [contradiction|apply OP]).
Qed.
