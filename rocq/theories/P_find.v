(** Proofs for M_find. *)
From Verif Require Import Base Cstr M_stringptr D_stringptr P_stringptr M_filelist S_filelist P_filelist T_filelist M_log T_log M_find S_find D_find.

Lemma last_snoc_app (a b : list Z) : b <> [] -> last (a ++ b) 0 = last b 0.
Proof. intros N. destruct (exists_last N) as (b' & x & ->). rewrite app_assoc, !last_last. reflexivity. Qed.
Lemma isdir_ok s t : holds s t -> isdir s = Ret (last t 0 =? 47).
Proof.
  intros H. destruct (holds_size _ _ H) as [S B]. unfold isdir. rewrite S. destruct (Z.eqb_spec (zlen t) 0) as [E|E]; [apply zlen_0 in E; subst t; reflexivity|].
  assert (N : t <> []) by (intros ->; now apply E). destruct (exists_last N) as (a & x & ->). rewrite last_last. replace (zlen (a ++ [x]) - 1) with (zlen a) by (zl; lia). rewrite (holds_read s a x [] H). reflexivity.
Qed.
Lemma put_line_ok s t : holds s t -> exists evs, put_line s = Ret evs /\ sends 1 evs (t ++ [10]).
Proof. intros H. unfold put_line. destruct (puts_ok 1 s t H) as (e & -> & S). cbn [bind]. eexists. split; [reflexivity|]. apply sends_app; [exact S|apply sends_ln]. Qed.
Lemma new_holds r t : new_with r t -> zlen t < 2 ^ 63 - 17 -> holds r t.
Proof. intros (h & L & ->) B. exists h, [0]. split; [reflexivity|]. split; [now rewrite L|]. split; [reflexivity|]. cbn [sb]. zl. lia. Qed.
Lemma concat2_ok mal a b ta tb : holds a ta -> holds b tb -> zlen (ta ++ tb) < 2 ^ 63 - 17 -> exists r, concat2 mal a b = Ret r /\ holds r (ta ++ tb).
Proof.
  intros Ha Hb L. unfold concat2. destruct (concat_ok mal a ta [b] [tb] Ha) as (r & E & N).
  - constructor; [exact Hb|constructor].
  - cbn [concat]. rewrite app_nil_r. lia.
  - rewrite E. cbn [bind]. cbn [concat] in N. rewrite app_nil_r in N. exists r. split; [reflexivity|]. now apply new_holds.
Qed.
Lemma star_holds : holds star [42].
Proof. exists [], [0]. repeat split. Qed.
(** what a directory's entry is called in the list *)
Definition label (p : list Z) (e : list Z * bool) : list Z := p ++ fst e ++ (if snd e then [47] else []).
Definition good_entry (e : list Z * bool) : Prop := zlen (fst e) < 2 ^ 62 /\ fst e <> [] /\ ~ In 47 (fst e).
Lemma last_notin (n : list Z) c : n <> [] -> ~ In c n -> last n 0 <> c.
Proof. intros N I E. apply I. destruct (exists_last N) as (a & x & ->). rewrite last_last in E. subst. apply in_or_app. right. now left. Qed.
Lemma label_dir p e : good_entry e -> (last (label p e) 0 =? 47) = snd e.
Proof.
  intros (_ & N & I). destruct e as [n [|]]; unfold label; cbn [fst snd] in *.
  - rewrite app_assoc, last_last. reflexivity.
  - rewrite app_nil_r, last_snoc_app by assumption. pose proof (last_notin n 47 N I). lia.
Qed.
Lemma F2_cons_inv {A B} (P : A -> B -> Prop) l y l' : Forall2 P l (y :: l') -> exists x r, l = x :: r /\ P x y /\ Forall2 P r l'.
Proof. inversion 1; subst; eauto. Qed.
Lemma output_app a b : output (a ++ b) = output a ++ output b.
Proof. apply flat_map_app. Qed.

Scheme walk_ind2 := Induction for walk Sort Prop with walk_entries_ind2 := Induction for walk_entries Sort Prop.
Section Find.
Variables (glob : list Z -> Z -> Z * list (list Z)) (junk : nat -> list Z) (mal : Z -> Z) (fs : files).
Hypothesis Hj : forall k, zlen (junk k) = PATH_MAX.
Hypothesis Hg : serves glob fs.
Lemma search_dir_ok (np : bool) k dir p es : fs p = Some es -> holds dir p -> last p 0 = 47 ->
  Forall good_entry es /\ zlen p < 4096 /\ exists fl c, Forall2 holds fl (map (label (if np then [] else p)) es) /\
  filelist_search glob true (fun _ => true) (junk k) (Some dir) (Some star) (flf_val (flf_all np)) = Ret (0, fl, c).
Proof using Hj Hg.
  intros E H L. destruct (Hg p es E) as (Np & Lp & pathv & ns & G & F & D & M). assert (Ne : p <> []) by (intros ->; discriminate L). pose proof (escape_len p) as Le. unfold PATH_MAX in *.
  assert (Lm : filter (listed (flf_all np)) ns = filter (listed (flf_all false)) ns) by (apply filter_ext; intros []; reflexivity).
  destruct (c70_files glob (junk k) (Some dir) star p [42] (flf_all np) pathv ns) as (fl & Hf & R).
  - apply Hj.
  - right. right. exists dir. auto.
  - apply star_holds.
  - exact Np.
  - repeat constructor. lia.
  - discriminate.
  - lia.
  - change (zlen [42]) with 1. unfold PATH_MAX. lia.
  - unfold sep. rewrite L. cbn [Z.eqb Pos.eqb app]. exact G.
  - exact F.
  - assert (Nm : Forall2 (fun (b : list Z) n => name_ok n) pathv ns) by (clear -F; induction F as [|b n ? ? (H & _) F IH]; constructor; auto).
    split; [|split; [lia|]].
    + rewrite <- M. apply Forall_map. apply Forall_forall. intros n I. apply filter_In in I as [I _]. rewrite Forall_forall in D. destruct (D n I) as [_ Ln].
      assert (name_ok n) as (_ & _ & S & Nb). { clear -Nm I. induction Nm; [destruct I|]. destruct I as [<-|I]; auto. } unfold good_entry. cbn [fst]. auto.
    + exists fl. eexists. split; [|exact R]. revert Hf. unfold expected. replace (extra (flf_all np)) with (@nil (list Z)) by reflexivity. cbn [app]. rewrite Lm, <- M, map_map.
      replace (map (shown (flf_all np)) (filter (listed (flf_all false)) ns)) with (map (fun n => label (if np then [] else p) (n_base n, n_mark n)) (filter (listed (flf_all false)) ns)); [auto|].
      apply map_ext_in. intros n I. apply filter_In in I as [I _]. rewrite Forall_forall in D. destruct (D n I) as [Dn _]. unfold shown, flf_all, label, n_path, n_entry. cbn [f_nopath fst snd]. destruct np; [reflexivity|]. rewrite <- Dn, <- app_assoc. reflexivity.
Qed.

(** ** the first program *)
Definition loop1 (rec : sp -> out (list event)) := fix loop (fl : list sp) : out (list event) :=
  match fl with
  | [] => Ret []
  | file :: fl =>
      let* d := isdir file in
      let* x := (if d : bool then rec file else put_line file) in
      let* y := loop fl in Ret (x ++ y)
  end.
Lemma doDir_eq fuel dir : doDir glob junk (S fuel) dir =
  let* (ret, files, _) := filelist_search glob true (fun _ => true) (junk fuel) (Some dir) (Some star) FLF_INCLUDE_HIDDEN in
  if ret =? 0 then let* a := put_line dir in let* b := loop1 (doDir glob junk fuel) files in Ret (a ++ b) else Ret [].
Proof. reflexivity. Qed.
Lemma doDir_ok p ls : walk fs p ls -> last p 0 = 47 -> exists N, forall fuel, (N <= fuel)%nat -> forall dir, holds dir p ->
  exists evs, doDir glob junk fuel dir = Ret evs /\ sends 1 evs (output ls).
Proof using All.
  apply (walk_ind2 fs (fun p ls _ => last p 0 = 47 -> exists N, forall fuel, (N <= fuel)%nat -> forall dir, holds dir p -> exists evs, doDir glob junk fuel dir = Ret evs /\ sends 1 evs (output ls))
    (fun p es ls _ => last p 0 = 47 -> Forall good_entry es -> exists N, forall fuel, (N <= fuel)%nat -> forall fl, Forall2 holds fl (map (label p) es) -> exists evs, loop1 (doDir glob junk fuel) fl = Ret evs /\ sends 1 evs (output ls))).
  - clear p ls. intros p es ls E W IH L.
    destruct (fs p) as [es'|] eqn:E'; [|discriminate]. injection E as ->. assert (Hx : exists dir, holds dir p). { destruct (Hg p es E') as (_ & B & _). pose proof (escape_len p). exists (mkSp p 0 (zlen p)), [], []. unfold holds_in. cbn [sb so sz app]. rewrite app_nil_r. unfold PATH_MAX in *. repeat split. lia. }
    destruct Hx as (d0 & H0). destruct (search_dir_ok false 0%nat d0 p es E' H0 L) as (Ge & _ & _). destruct (IH L Ge) as (N & HN). exists (S N). intros [|fuel] Hf dir Hd; [lia|]. rewrite doDir_eq.
    destruct (search_dir_ok false fuel dir p es E' Hd L) as (_ & _ & fl & c & Fl & R). change FLF_INCLUDE_HIDDEN with (flf_val (flf_all false)). rewrite R. cbn [bind Z.eqb]. destruct (put_line_ok dir p Hd) as (a & -> & Sa). cbn [bind]. destruct (HN fuel ltac:(lia) fl Fl) as (b & -> & Sb). cbn [bind].
    eexists. split; [reflexivity|]. unfold output. cbn [flat_map]. now apply sends_app.
  - clear p ls. intros p L _. exists 0%nat. intros fuel _ fl F. inversion F; subst. exists []. split; [reflexivity|apply sends0].
  - clear p ls. intros p n es ls W IH L G. apply Forall_cons_iff in G as [G1 G2]. destruct (IH L G2) as (N & HN). exists N. intros fuel Hf fl F. cbn [map] in F. inversion F as [|file ? fl' ? Hfile F']; subst. unfold loop1 in *. rewrite (isdir_ok _ _ Hfile). rewrite label_dir by assumption. cbn [bind snd]. destruct (put_line_ok _ _ Hfile) as (x & -> & Sx). cbn [bind]. destruct (HN fuel Hf fl' F') as (y & -> & Sy). cbn [bind]. eexists. split; [reflexivity|].
    unfold output. cbn [flat_map]. apply sends_app; [|exact Sy]. unfold label in Sx. cbn [fst snd] in Sx. now rewrite app_nil_r in Sx.
  - clear p ls. intros p n es l1 l2 W1 IH1 W2 IH2 L G. apply Forall_cons_iff in G as [G1 G2]. destruct (IH2 L G2) as (N2 & HN2). destruct IH1 as (N1 & HN1); [rewrite app_assoc; apply last_last|]. exists (max N1 N2). intros fuel Hf fl F. cbn [map] in F. inversion F as [|file ? fl' ? Hfile F']; subst. unfold loop1 in *. rewrite (isdir_ok _ _ Hfile). rewrite label_dir by assumption. cbn [bind snd].
    destruct (HN1 fuel ltac:(lia) file Hfile) as (x & -> & Sx). cbn [bind]. destruct (HN2 fuel ltac:(lia) fl' F') as (y & -> & Sy). cbn [bind]. eexists. split; [reflexivity|]. rewrite output_app. now apply sends_app.
Qed.

(** ** the second program *)
Variables (srcdir : sp) (s0 : list Z).
Hypothesis Hs : holds srcdir s0.
Definition loop2 (rec : sp -> out (list event)) (combined_src subd : sp) := fix loop (fl : list sp) : out (list event) :=
  match fl with
  | [] => Ret []
  | file :: fl =>
      let* file_combined_src := concat2 mal combined_src file in
      let* d := isdir file in
      let* x := (if d : bool then let* path_combined := concat2 mal subd file in rec path_combined else put_line file_combined_src) in
      let* y := loop fl in Ret (x ++ y)
  end.
Lemma doDir2_eq fuel subd : doDir2 glob junk mal (S fuel) srcdir subd =
  let* combined_src := concat2 mal srcdir subd in
  let* (ret, files, _) := filelist_search glob true (fun _ => true) (junk fuel) (Some combined_src) (Some star) (flf_val (flf_all true)) in
  if ret =? 0 then let* a := put_line combined_src in let* b := loop2 (doDir2 glob junk mal fuel srcdir) combined_src subd files in Ret (a ++ b) else Ret [].
Proof. reflexivity. Qed.
Lemma doDir2_ok p ls : walk fs p ls -> last p 0 = 47 -> exists N, forall fuel, (N <= fuel)%nat -> forall subd u, holds subd u -> p = s0 ++ u ->
  exists evs, doDir2 glob junk mal fuel srcdir subd = Ret evs /\ sends 1 evs (output ls).
Proof using All.
  apply (walk_ind2 fs (fun p ls _ => last p 0 = 47 -> exists N, forall fuel, (N <= fuel)%nat -> forall subd u, holds subd u -> p = s0 ++ u -> exists evs, doDir2 glob junk mal fuel srcdir subd = Ret evs /\ sends 1 evs (output ls))
    (fun p es ls _ => last p 0 = 47 -> Forall good_entry es -> zlen p < 4096 -> exists N, forall fuel, (N <= fuel)%nat -> forall comb subd u fl, holds comb p -> holds subd u -> p = s0 ++ u -> Forall2 holds fl (map (label []) es) ->
       exists evs, loop2 (doDir2 glob junk mal fuel srcdir) comb subd fl = Ret evs /\ sends 1 evs (output ls))).
  - clear p ls. intros p es ls E W IH L.
    destruct (fs p) as [es'|] eqn:E'; [|discriminate]. injection E as ->. assert (Hx : exists dir, holds dir p). { destruct (Hg p es E') as (_ & B & _). pose proof (escape_len p). exists (mkSp p 0 (zlen p)), [], []. unfold holds_in. cbn [sb so sz app]. rewrite app_nil_r. unfold PATH_MAX in *. repeat split. lia. }
    destruct Hx as (d0 & H0). destruct (search_dir_ok true 0%nat d0 p es E' H0 L) as (Ge & Lp & _). destruct (IH L Ge Lp) as (N & HN). exists (S N). intros [|fuel] Hf subd u Hu Ep; [lia|]. rewrite doDir2_eq.
    destruct (concat2_ok mal srcdir subd s0 u Hs Hu) as (comb & -> & Hc); [rewrite <- Ep; lia|]. rewrite <- Ep in Hc. cbn [bind].
    destruct (search_dir_ok true fuel comb p es E' Hc L) as (_ & _ & fl & c & Fl & R). rewrite R. cbn [bind Z.eqb]. destruct (put_line_ok comb p Hc) as (a & -> & Sa). cbn [bind]. destruct (HN fuel ltac:(lia) comb subd u fl Hc Hu Ep Fl) as (b & -> & Sb). cbn [bind].
    eexists. split; [reflexivity|]. unfold output. cbn [flat_map]. now apply sends_app.
  - clear p ls. intros p L _ _. exists 0%nat. intros fuel _ comb subd u fl _ _ _ F. inversion F; subst. exists []. split; [reflexivity|apply sends0].
  - clear p ls. intros p n es ls W IH L G Lp. apply Forall_cons_iff in G as [G1 G2]. destruct (IH L G2 Lp) as (N & HN). exists N. intros fuel Hf comb subd u fl Hc Hu Ep F. cbn [map] in F. apply F2_cons_inv in F as (file & fl' & -> & Hfile & F'). unfold loop2 in *.
    assert (Lb : zlen (p ++ label [] (n, false)) < 2 ^ 63 - 17) by (unfold label; destruct G1 as (B & _); cbn [fst snd] in *; zl; lia). destruct (concat2_ok mal comb file p _ Hc Hfile Lb) as (fc & -> & Hfc). cbn [bind]. rewrite (isdir_ok _ _ Hfile). rewrite label_dir by assumption. cbn [bind snd]. destruct (put_line_ok _ _ Hfc) as (x & -> & Sx). cbn [bind]. destruct (HN fuel Hf comb subd u fl' Hc Hu Ep F') as (y & -> & Sy). cbn [bind]. eexists. split; [reflexivity|].
    unfold output. cbn [flat_map]. apply sends_app; [|exact Sy]. unfold label in Sx. cbn [fst snd app] in Sx. now rewrite app_nil_r in Sx.
  - clear p ls. intros p n es l1 l2 W1 IH1 W2 IH2 L G Lp. apply Forall_cons_iff in G as [G1 G2]. destruct (IH2 L G2 Lp) as (N2 & HN2). destruct IH1 as (N1 & HN1); [rewrite app_assoc; apply last_last|]. exists (max N1 N2). intros fuel Hf comb subd u fl Hc Hu Ep F. cbn [map] in F. apply F2_cons_inv in F as (file & fl' & -> & Hfile & F'). unfold loop2 in *.
    assert (Lb : zlen (p ++ label [] (n, true)) < 2 ^ 63 - 17) by (unfold label; destruct G1 as (B & _); cbn [fst snd] in *; zl; lia). destruct (concat2_ok mal comb file p _ Hc Hfile Lb) as (fc & -> & Hfc). cbn [bind]. rewrite (isdir_ok _ _ Hfile). rewrite label_dir by assumption. cbn [bind snd].
    destruct (concat2_ok mal subd file u _ Hu Hfile) as (pc & -> & Hpc); [revert Lb; rewrite Ep; zl; pose proof (zlen_nonneg s0); lia|]. cbn [bind].
    destruct (HN1 fuel ltac:(lia) pc _ Hpc) as (x & -> & Sx); [rewrite Ep; unfold label; cbn [fst snd app]; now rewrite <- app_assoc|]. cbn [bind]. destruct (HN2 fuel ltac:(lia) comb subd u fl' Hc Hu Ep F') as (y & -> & Sy). cbn [bind]. eexists. split; [reflexivity|]. rewrite output_app. now apply sends_app.
Qed.
End Find.
