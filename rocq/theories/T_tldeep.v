(** C16, the two remaining deep functions of tlist. *)
From Verif Require Import Base M_tlist S_tlist D_tlist P_tlist M_tldeep S_tldeep.

Lemma deep_frees_concat A (xs : list (Z * A)) : concat (map (fun x => [fst x + 24; fst x]) xs) = deep_frees xs.
Proof. induction xs as [|[a v] xs IH]; cbn; congruence. Qed.
Lemma reads_unique A (t : tlist A) xs ys : tgood t xs -> treads t ys -> xs = ys.
Proof.
  intros G [T1 T2]. unfold tlist_getsize in T1. rewrite (tgood_size _ _ G) in T1.
  destruct ys as [|[a v] ys]. { apply zlen_0. exact T1. }
  apply (znth_ext (0, v)); [exact T1|].
  intros i I. specialize (T2 i (0, v)). rewrite <- T1 in T2. specialize (T2 I). rewrite (get_good _ _ _ (0, v) G I) in T2.
  destruct (znth (0, v) xs i), (znth (0, v) ((a, v) :: ys) i). cbn [fst snd] in T2. injection T2 as T2 ->. f_equal. lia.
Qed.
Lemma deep_loop A (t : tlist A) xs : tgood t xs -> exists t', tlist_free_items_impl t true = Ret (deep_frees xs, t') /\ tgood t' [].
Proof.
  intros G. unfold tlist_free_items_impl. rewrite (tgood_size _ _ G).
  destruct (free_loop true (S (Z.to_nat (zlen xs))) t xs [] G) as (t' & -> & G'). { unfold zlen. lia. }
  exists t'. split; [|exact G']. cbn [app]. now rewrite deep_frees_concat.
Qed.

(** tlist_free_items_deep empties the list, but gives free an address inside each block *)
Theorem c16_free_items_deep_frees_interior_refuted :
  forall A seed (h : list (top A)) rs t xs, tcaller_ok (mkTl seed Leaf) h -> trun (mkTl seed Leaf) h = Ret (rs, t) -> treads t xs ->
    tspec_run [] rs xs /\ exists t', tlist_free_items_deep t = Ret (deep_frees xs, t') /\ treads t' [].
Proof.
  intros A seed h rs t xs V R TR. destruct (run_good h _ _ (init_good seed) V) as (rs' & t' & ys & E & SR & G & M).
  rewrite R in E. injection E as -> ->. pose proof (reads_unique _ _ _ _ G TR). subst ys. split; [exact SR|].
  destruct (deep_loop _ _ _ G) as (t1 & E & G1). exists t1. split; [exact E|].
  split; [exact (tgood_size _ _ G1)|]. intros i d I. revert I. zl. lia.
Qed.
Print Assumptions c16_free_items_deep_frees_interior_refuted.
(** tlist_free_deep does the same and then releases the list *)
Theorem c16_free_deep_frees_interior_refuted :
  forall A seed (h : list (top A)) rs t xs self, tcaller_ok (mkTl seed Leaf) h -> trun (mkTl seed Leaf) h = Ret (rs, t) -> treads t xs ->
    tlist_free_deep self t = Ret (deep_frees xs ++ [self]).
Proof.
  intros A seed h rs t xs self V R TR. destruct (run_good h _ _ (init_good seed) V) as (rs' & t' & ys & E & SR & G & M).
  rewrite R in E. injection E as -> ->. pose proof (reads_unique _ _ _ _ G TR). subst ys.
  destruct (deep_loop _ _ _ G) as (t1 & E & G1). unfold tlist_free_deep. now rewrite E.
Qed.
Print Assumptions c16_free_deep_frees_interior_refuted.
Example c16_free_deep_example :
  match trun tlist_new [TApp (Some 100) 7; TIns (Some 200) 0 8; TApp (Some 300) 9] with
  | Ret (_, t) => tlist_free_deep 50 t = Ret [224; 200; 124; 100; 324; 300; 50]
  | _ => False
  end.
Proof. vm_compute. reflexivity. Qed.
