(** Proofs about filelist. *)
From Verif Require Import Base Cstr M_stringptr D_stringptr P_stringptr M_filelist S_filelist.

(** ** the pattern *)
Definition special (c : Z) : bool := (c =? 91) || (c =? 63) || (c =? 42).
Definition escape (d : list Z) : list Z := flat_map (fun c => if special c then [92; c] else [c]) d.
Lemma escape_len d : zlen d <= zlen (escape d).
Proof. induction d as [|c d IH]; [reflexivity|]. cbn [escape flat_map]. fold (escape d). rewrite zlen_app, zlen_cons. destruct (special c); zl; lia. Qed.
Lemma escape_nz d : nz d -> nz (escape d).
Proof. induction d as [|c d IH]; intros N; [constructor|]. apply nz_cons in N as [N0 N]. cbn [escape flat_map]. apply nz_app. split; [|now apply IH]. destruct (special c); repeat constructor; lia. Qed.
Lemma escape_loop_ok d : forall fuel w r p q, (length d < fuel)%nat -> zlen w + zlen r = PATH_MAX -> zlen w + zlen (escape d) + 2 < PATH_MAX ->
  escape_loop fuel (w ++ r) (zlen w) (p ++ d ++ q) (zlen p) (zlen d) = Ret (Some (zlen w + zlen (escape d)), w ++ escape d ++ zdrop (zlen (escape d)) r).
Proof.
  induction d as [|c d IH]; intros fuel w r p q F L B; (destruct fuel as [|fuel]; [cbn in F; lia|]); cbn [escape_loop].
  - pose proof (zlen_nonneg w). cbn [escape flat_map] in *. change (zlen (@nil Z)) with 0 in *. cbn [negb Z.eqb andb orb]. replace (PATH_MAX <=? zlen w) with false by lia. now rewrite Z.add_0_r.
  - pose proof (zlen_nonneg w). pose proof (zlen_nonneg d). cbn [escape flat_map] in *. fold (escape d) in *. rewrite zlen_app in *. rewrite (zlen_cons c d). pose proof (escape_len d).
    replace (1 + zlen d =? 0) with false by lia. cbn [negb andb]. assert (Ls : zlen (if special c then [92; c] else [c]) = if special c then 2 else 1) by (destruct (special c); reflexivity). rewrite Ls in *.
    replace (zlen w + 2 <? PATH_MAX) with true by (destruct (special c); lia). cbn [app]. rewrite zread_at by reflexivity. cbn [bind].
    replace (1 + zlen d - 1) with (zlen d) by lia. specialize (IH fuel) as IH'. assert (Ep : p ++ c :: d ++ q = (p ++ [c]) ++ d ++ q) by now rewrite <- app_assoc. assert (Lp : zlen p + 1 = zlen (p ++ [c])) by (zl; lia). rewrite Ep, Lp. unfold PATH_MAX in L, B.
    change ((c =? 91) || (c =? 63) || (c =? 42)) with (special c). destruct (special c) eqn:Sc.
    + destruct r as [|x0 [|x1 r]]; [zl; lia|zl; lia|]. rewrite zwrite_at by reflexivity. cbn [bind]. assert (Ew : w ++ 92 :: x1 :: r = (w ++ [92]) ++ x1 :: r) by now rewrite <- app_assoc. rewrite Ew. rewrite zwrite_at by (zl; lia). cbn [bind].
      replace ((w ++ [92]) ++ c :: r) with ((w ++ [92; c]) ++ r) by (rewrite <- !app_assoc; reflexivity). replace (zlen w + 1 + 1) with (zlen (w ++ [92; c])) by (zl; lia). rewrite !zlen_cons in L. rewrite IH by (unfold PATH_MAX; rewrite ?zlen_app; change (zlen [92; c]) with 2; cbn in F; lia).
      f_equal. f_equal; [f_equal; zl; lia|]. rewrite <- !app_assoc. cbn [app]. do 4 f_equal. change (x0 :: x1 :: r) with ([x0; x1] ++ r). rewrite zdrop_app2 by (change (zlen [x0; x1]) with 2; lia). f_equal. change (zlen [x0; x1]) with 2. lia.
    + destruct r as [|x0 r]; [zl; lia|]. rewrite zlen_cons in L. cbn [bind]. rewrite zwrite_at by reflexivity. cbn [bind].
      replace (w ++ c :: r) with ((w ++ [c]) ++ r) by (rewrite <- !app_assoc; reflexivity). replace (zlen w + 1) with (zlen (w ++ [c])) by (zl; lia). rewrite IH by (unfold PATH_MAX; rewrite ?zlen_app; change (zlen [c]) with 1; cbn in F; lia).
      f_equal. f_equal; [f_equal; zl; lia|]. rewrite <- !app_assoc. cbn [app]. do 3 f_equal. change (x0 :: r) with ([x0] ++ r). rewrite zdrop_app2 by (change (zlen [x0]) with 1; lia). f_equal. change (zlen [x0]) with 1. lia.
Qed.
Lemma escape_loop_safe d : forall fuel w r p q, (length d < fuel)%nat -> zlen w + zlen r = PATH_MAX ->
  exists i b, zlen b = PATH_MAX /\ escape_loop fuel (w ++ r) (zlen w) (p ++ d ++ q) (zlen p) (zlen d) = Ret (i, b) /\ (i = None \/ i = Some (zlen w + zlen (escape d))).
Proof.
  induction d as [|c d IH]; intros fuel w r p q F L; (destruct fuel as [|fuel]; [cbn in F; lia|]); cbn [escape_loop].
  - change (zlen (@nil Z)) with 0. cbn [negb Z.eqb andb orb]. exists (if PATH_MAX <=? zlen w then None else Some (zlen w)), (w ++ r). split; [now rewrite zlen_app|]. split; [destruct (PATH_MAX <=? zlen w); reflexivity|]. cbn. rewrite Z.add_0_r. destruct (PATH_MAX <=? zlen w); auto.
  - pose proof (zlen_nonneg w). pose proof (zlen_nonneg d). rewrite (zlen_cons c d). replace (1 + zlen d =? 0) with false by lia. cbn [negb andb orb]. destruct (Z.ltb_spec (zlen w + 2) PATH_MAX) as [B|B].
    2: { exists None, (w ++ r). split; [now rewrite zlen_app|]. split; [reflexivity|now left]. }
    cbn [app]. rewrite zread_at by reflexivity. cbn [bind]. replace (1 + zlen d - 1) with (zlen d) by lia. assert (Ep : p ++ c :: d ++ q = (p ++ [c]) ++ d ++ q) by now rewrite <- app_assoc. assert (Lp : zlen p + 1 = zlen (p ++ [c])) by (zl; lia). rewrite Ep, Lp. unfold PATH_MAX in L, B.
    change ((c =? 91) || (c =? 63) || (c =? 42)) with (special c). cbn [escape flat_map]. fold (escape d). destruct (special c) eqn:Sc.
    + destruct r as [|x0 [|x1 r]]; [zl; lia|zl; lia|]. rewrite zwrite_at by reflexivity. cbn [bind]. assert (Ew : w ++ 92 :: x1 :: r = (w ++ [92]) ++ x1 :: r) by now rewrite <- app_assoc. rewrite Ew. rewrite zwrite_at by (zl; lia). cbn [bind].
      replace ((w ++ [92]) ++ c :: r) with ((w ++ [92; c]) ++ r) by (rewrite <- !app_assoc; reflexivity). replace (zlen w + 1 + 1) with (zlen (w ++ [92; c])) by (zl; lia). rewrite !zlen_cons in L.
      destruct (IH fuel (w ++ [92; c]) r (p ++ [c]) q) as (i & b & Lb & E & I); [cbn in F; lia|unfold PATH_MAX; rewrite ?zlen_app; change (zlen [92; c]) with 2; lia|]. exists i, b. split; [exact Lb|]. split; [exact E|]. destruct I as [->|I]; [now left|right]. rewrite I. f_equal. zl. lia.
    + destruct r as [|x0 r]; [zl; lia|]. rewrite zlen_cons in L. cbn [bind]. rewrite zwrite_at by reflexivity. cbn [bind].
      replace (w ++ c :: r) with ((w ++ [c]) ++ r) by (rewrite <- !app_assoc; reflexivity). replace (zlen w + 1) with (zlen (w ++ [c])) by (zl; lia).
      destruct (IH fuel (w ++ [c]) r (p ++ [c]) q) as (i & b & Lb & E & I); [cbn in F; lia|unfold PATH_MAX; rewrite ?zlen_app; change (zlen [c]) with 1; lia|]. exists i, b. split; [exact Lb|]. split; [exact E|]. destruct I as [->|I]; [now left|right]. rewrite I. f_equal. zl. lia.
Qed.
Lemma escape_literal br d P s : ~ In 92 d -> (matches br (escape d ++ P) s <-> exists m, s = d ++ m /\ matches br P m).
Proof.
  revert s. induction d as [|c d IH]; intros s N; cbn [escape flat_map app].
  - split; [eauto|]. intros (m & -> & H). exact H.
  - fold (escape d). assert (Nd : ~ In 92 d) by (intros Q; apply N; now right). assert (Nc : c <> 92) by (intros ->; apply N; now left). rewrite <- app_assoc. unfold special. split.
    + intros H. destruct ((c =? 91) || (c =? 63) || (c =? 42)) eqn:S; cbn [app] in H.
      * inversion H; subst; try congruence. match goal with Q : matches br (escape d ++ P) _ |- _ => apply IH in Q; [|assumption]; destruct Q as (m & -> & M) end. exists m. split; [reflexivity|exact M].
      * inversion H; subst; try discriminate; try congruence. match goal with Q : matches br (escape d ++ P) _ |- _ => apply IH in Q; [|assumption]; destruct Q as (m & -> & M) end. exists m. split; [reflexivity|exact M].
    + intros (m & -> & M). assert (Q : matches br (escape d ++ P) (d ++ m)) by (apply IH; [assumption|eauto]). destruct ((c =? 91) || (c =? 63) || (c =? 42)) eqn:S; cbn [app]; [now apply m_esc|]. apply m_ord; try lia. exact Q.
Qed.
(** ** the names *)
Lemma has_dot f : has (flf_val f) FLF_INCLUDE_DOT = f_dot f. Proof. destruct f as [[] [] [] []]; reflexivity. Qed.
Lemma has_dotdot f : has (flf_val f) FLF_INCLUDE_DOT_DOT = f_dotdot f. Proof. destruct f as [[] [] [] []]; reflexivity. Qed.
Lemma has_nopath f : has (flf_val f) FLF_EXCLUDE_PATH = f_nopath f. Proof. destruct f as [[] [] [] []]; reflexivity. Qed.
Lemma has_hidden f : has (flf_val f) FLF_INCLUDE_HIDDEN = f_hidden f. Proof. destruct f as [[] [] [] []]; reflexivity. Qed.
Lemma zread_pos (p : list Z) c q l i : l = p ++ c :: q -> i = zlen p -> zread l i = Ret c.
Proof. intros -> ->. now apply zread_at. Qed.
Ltac rd P := match goal with |- context [zread ?l ?i] => rewrite (zread_pos P _ _ l i) by ((repeat rewrite <- app_assoc; reflexivity) || (zl; lia)); cbn [bind] end.
Lemma snoc_case (l : list Z) : l = [] \/ exists a x, l = a ++ [x].
Proof. destruct l as [|c l]; [now left|right]. assert (N : c :: l <> []) by discriminate. destruct (exists_last N) as (a & x & E). eauto. Qed.
Definition opt_name (f : flf) (n : name) (s : sp) : option (option sp) := if listed f n then Some (Some s) else None.
Lemma list_path_ok f n r : f_nopath f = false -> name_ok n -> list_name (flf_val f) (n_path n ++ 0 :: r) = Ret (opt_name f n (mkSp (n_path n ++ 0 :: r) 0 (zlen (n_path n)))).
Proof.
  intros Np (N & By & Ns & Ne). unfold list_name. rewrite strlen_0 by exact N. cbn [bind]. rewrite has_nopath, Np, has_dot, has_dotdot, has_hidden. cbn [negb].
  destruct n as [d b mk]. unfold n_path, n_entry, opt_name, listed, is_dot, is_dotdot in *. cbn [n_dir n_base n_mark] in *. destruct (exists_last Ne) as (b1 & x & ->). pose proof (zlen_nonneg d). pose proof (zlen_nonneg b1).
  set (tl := if mk then [47] else []) in *. assert (Lt : 0 <= zlen tl) by apply zlen_nonneg. match goal with |- context [zlen ?l =? 0] => replace (zlen l =? 0) with false by (zl; lia) end.
  assert (Nx : x <> 47) by (intros ->; apply Ns, in_or_app; right; now left).
  assert (Eq1 : forall l, (if list_eq_dec Z.eq_dec (b1 ++ [x]) l then mk else false) = (if list_eq_dec Z.eq_dec (b1 ++ [x]) l then true else false) && mk) by (intros l; destruct (list_eq_dec _ _ l); reflexivity). rewrite !Eq1. clear Eq1.
  destruct (f_hidden f) eqn:Hh; cbn [andb]; [|reflexivity]. destruct mk.
  2: { unfold tl in *. rewrite !andb_false_r. cbn [andb orb negb]. match goal with |- context [3 <=? ?l] => destruct (Z.leb_spec 3 l) as [G|G] end; [|reflexivity]. 
       set (path := d ++ [47] ++ (b1 ++ [x]) ++ []) in *. assert (Ep : path = (d ++ [47] ++ b1) ++ [x]) by (unfold path; rewrite app_nil_r, <- !app_assoc; reflexivity).
       rewrite (zread_pos (d ++ [47] ++ b1) x (0 :: r)) by (rewrite Ep; ((rewrite <- !app_assoc; reflexivity) || (zl; lia))). cbn [bind].
       assert (R2 : exists c, zread (path ++ 0 :: r) (zlen path - 2) = Ret c) by (exists (znth 0 (path ++ 0 :: r) (zlen path - 2)); apply zread_ok; rewrite zlen_app, zlen_cons; pose proof (zlen_nonneg r); lia). destruct R2 as (c & ->). cbn [bind]. replace (x =? 47) with false by lia. reflexivity. }
  unfold tl in *. rewrite !andb_true_r. match goal with |- context [3 <=? ?l] => replace (3 <=? l) with true by (zl; lia) end.
  set (path := d ++ [47] ++ (b1 ++ [x]) ++ [47]) in *. assert (Lp : zlen path = zlen d + zlen b1 + 3) by (unfold path; zl; lia).
  rewrite (zread_pos (d ++ [47] ++ b1 ++ [x]) 47 (0 :: r)); [|unfold path; rewrite <- !app_assoc; reflexivity|zl; lia]. cbn [bind].
  rewrite (zread_pos (d ++ [47] ++ b1) x (47 :: 0 :: r)); [|unfold path; rewrite <- !app_assoc; reflexivity|zl; lia]. cbn [bind Z.eqb Pos.eqb andb].
  destruct (Z.eqb_spec x 46) as [->|Hx].
  2: { destruct (list_eq_dec Z.eq_dec (b1 ++ [x]) [46]) as [E|_]; [change [46] with ([] ++ [46]) in E; apply app_inj_tail in E; lia|]. destruct (list_eq_dec Z.eq_dec (b1 ++ [x]) [46; 46]) as [E|_]; [change [46; 46] with ([46] ++ [46]) in E; apply app_inj_tail in E; lia|]. reflexivity. }
  destruct (snoc_case b1) as [-> | (b2 & y & ->)].
  - rewrite (zread_pos d 47 (46 :: 47 :: 0 :: r)); [|unfold path; cbn [app]; rewrite <- !app_assoc; reflexivity|rewrite Lp; change (zlen (@nil Z)) with 0; lia]. cbn [bind Z.eqb Pos.eqb andb app]. destruct (list_eq_dec Z.eq_dec [46] [46]) as [_|E]; [|congruence]. destruct (list_eq_dec Z.eq_dec [46] [46; 46]) as [E|_]; [discriminate|]. destruct (f_dot f); cbn [negb andb orb]; [|reflexivity]. rewrite !andb_false_r. reflexivity.
  - assert (Ny : y <> 47) by (intros ->; apply Ns, in_or_app; left; apply in_or_app; right; now left). rewrite zlen_app in Lp. change (zlen [y]) with 1 in Lp. pose proof (zlen_nonneg b2).
    rewrite (zread_pos (d ++ [47] ++ b2) y (46 :: 47 :: 0 :: r)); [|unfold path; rewrite <- !app_assoc; reflexivity|rewrite Lp; zl; lia]. cbn [bind]. replace (y =? 47) with false by lia. rewrite andb_false_r. replace (4 <=? zlen path) with true by lia. rewrite andb_true_r.
    destruct (list_eq_dec Z.eq_dec ((b2 ++ [y]) ++ [46]) [46]) as [E|_]; [apply (f_equal (@length Z)) in E; rewrite !app_length in E; cbn in E; lia|]. cbn [andb orb].
    destruct (Z.eqb_spec y 46) as [->|Hy].
    2: { destruct (list_eq_dec Z.eq_dec ((b2 ++ [y]) ++ [46]) [46; 46]) as [E|_]; [change [46; 46] with (([] ++ [46]) ++ [46]) in E; apply app_inj_tail in E as [E _]; apply app_inj_tail in E; lia|]. rewrite andb_false_r. reflexivity. }
    rewrite andb_true_r. destruct (f_dotdot f); cbn [negb andb orb]; [rewrite andb_false_r; reflexivity|]. destruct (snoc_case b2) as [-> | (b3 & z & ->)].
    + rewrite (zread_pos d 47 (46 :: 46 :: 47 :: 0 :: r)); [|unfold path; cbn [app]; rewrite <- !app_assoc; reflexivity|rewrite Lp; change (zlen (@nil Z)) with 0; lia]. cbn [bind Z.eqb Pos.eqb app]. destruct (list_eq_dec Z.eq_dec [46; 46] [46; 46]) as [_|E]; [reflexivity|congruence].
    + assert (Nz : z <> 47) by (intros ->; apply Ns; rewrite <- !app_assoc; apply in_or_app; right; now left). rewrite zlen_app in Lp. change (zlen [z]) with 1 in Lp.
      rewrite (zread_pos (d ++ [47] ++ b3) z (46 :: 46 :: 47 :: 0 :: r)); [|unfold path; rewrite <- !app_assoc; reflexivity|rewrite Lp; zl; lia]. cbn [bind]. replace (z =? 47) with false by lia.
      destruct (list_eq_dec Z.eq_dec (((b3 ++ [z]) ++ [46]) ++ [46]) [46; 46]) as [E|_]; [apply (f_equal (@length Z)) in E; rewrite !app_length in E; cbn in E; lia|]. reflexivity.
Qed.
Lemma s8_slash c : byte c -> s8 c = 47 -> c = 47.
Proof. intros B H. unfold byte, s8 in *. destruct (Z_lt_dec c 128). - rewrite Z.mod_small in H by lia. lia. - replace (c + 128) with (c - 128 + 1 * 256) in H by lia. rewrite Z_mod_plus_full, Z.mod_small in H by lia. lia. Qed.
Lemma app_last_in (p q p' q' : list Z) c : p ++ c :: q = p' ++ c :: q' -> ~ In c q -> ~ In c q' -> p = p' /\ q = q'.
Proof.
  revert p'. induction p as [|x p IH]; intros [|y p'] E N N'; cbn [app] in E.
  - injection E as E. auto.
  - injection E as E1 E2. exfalso. apply N. rewrite E2. apply in_or_app. right. now left.
  - injection E as E1 E2. exfalso. apply N'. rewrite <- E2. apply in_or_app. right. now left.
  - injection E as E1 E2. destruct (IH p' E2 N N') as [-> ->]. subst. auto.
Qed.
Lemma rchr_slash b n d base post : b = d ++ 47 :: base ++ post -> n = zlen d + 1 + zlen base -> zlen b < 2 ^ 63 -> bytes (d ++ 47 :: base) -> ~ In 47 base -> stringptr_rchr (mkSp b 0 n) 47 = Ret (Some (zlen d)).
Proof.
  intros -> -> L By N. assert (H : holds (mkSp (d ++ 47 :: base ++ post) 0 (zlen d + 1 + zlen base)) (d ++ 47 :: base)).
  { exists [], post. unfold holds_in. cbn [sb so sz app]. split; [now rewrite <- app_assoc|]. split; [reflexivity|]. split; [zl; lia|exact L]. }
  destruct (rchr_ok _ _ 47 H) as [(p & c & q & E & Ec & F & ->)|[F _]].
  - assert (Hc : byte c). { unfold bytes in By. rewrite E in By. apply Forall_app in By as [_ By]. now inversion By. } apply s8_slash in Ec; [|exact Hc]. subst c. apply app_last_in in E as [-> _]; [reflexivity|exact N|]. intros I. rewrite Forall_forall in F. apply (F 47 I). reflexivity.
  - exfalso. rewrite Forall_forall in F. apply (F 47); [apply in_or_app; right; now left|reflexivity].
Qed.
Lemma list_entry_ok f n r : f_nopath f = true -> name_ok n -> zlen (n_path n ++ 0 :: r) < 2 ^ 63 -> list_name (flf_val f) (n_path n ++ 0 :: r) = Ret (opt_name f n (mkSp (n_path n ++ 0 :: r) (zlen (n_dir n) + 1) (zlen (n_entry n)))).
Proof.
  intros Np (N & By & Ns & Ne) L. unfold list_name. rewrite strlen_0 by exact N. cbn [bind]. rewrite has_nopath, Np, has_dot, has_dotdot, has_hidden. cbn [negb].
  destruct n as [d b mk]. unfold n_path, n_entry, opt_name, listed, is_dot, is_dotdot in *. cbn [n_dir n_base n_mark] in *. destruct (exists_last Ne) as (b1 & x & Eb). pose proof (zlen_nonneg d). pose proof (zlen_nonneg b1).
  assert (Nx : x <> 47) by (intros ->; apply Ns; rewrite Eb; apply in_or_app; right; now left). assert (Lb : zlen b = zlen b1 + 1) by (rewrite Eb; zl; lia).
  match goal with |- context [zlen ?l =? 0] => replace (zlen l =? 0) with false by (rewrite !zlen_app; change (zlen [47]) with 1; pose proof (zlen_nonneg (if mk then [47] else [])); lia) end.
  assert (Cut : forall (isdir : bool) q, let B := d ++ 47 :: b ++ (if isdir then [47] else []) ++ 0 :: q in zlen B < 2 ^ 63 ->
    (let o := zlen d + 1 in let sz := zlen b + (if isdir then 1 else 0) in
     let* c0 := (if f_hidden f then zread B o else Ret 0) in
     let* skip := (if c0 =? 46 then
             let* dot := (if negb (f_dot f) && (sz =? 2) then let* c := zread B (o + 1) in Ret (c =? 47) else Ret false) in
             if dot : bool then Ret true
             else if negb (f_dotdot f) && (sz =? 3) then
               let* c := zread B (o + 1) in
               let* d := zread B (o + 2) in Ret ((c =? 46) && (d =? 47))
             else Ret false
           else Ret false) in
     Ret (if skip : bool then None else Some (Some (mkSp B o sz)))) = Ret (if negb (f_hidden f && (((if list_eq_dec Z.eq_dec b [46] then isdir else false) && negb (f_dot f)) || ((if list_eq_dec Z.eq_dec b [46; 46] then isdir else false) && negb (f_dotdot f)))) then Some (Some (mkSp B (zlen d + 1) (zlen b + (if isdir then 1 else 0)))) else None)).
  { intros isdir q B HB. cbv zeta. destruct (f_hidden f); cbn [andb negb]; [|reflexivity]. destruct b as [|c0 b0]; [congruence|].
    rewrite (zread_pos (d ++ [47]) c0 (b0 ++ (if isdir then [47] else []) ++ 0 :: q)); [|unfold B; rewrite <- app_assoc; reflexivity|zl; lia]. cbn [bind].
    destruct (Z.eqb_spec c0 46) as [->|Hc0].
    2: { destruct (list_eq_dec Z.eq_dec (c0 :: b0) [46]) as [E|_]; [congruence|]. destruct (list_eq_dec Z.eq_dec (c0 :: b0) [46; 46]) as [E|_]; [congruence|]. reflexivity. }
    rewrite (zlen_cons 46 b0). destruct b0 as [|c1 b0].
    { (* "." *) change (zlen (@nil Z)) with 0. destruct (list_eq_dec Z.eq_dec [46] [46]) as [_|E]; [|congruence]. destruct (list_eq_dec Z.eq_dec [46] [46; 46]) as [E|_]; [discriminate|]. destruct isdir; cbn [Z.add Z.eqb Pos.add Pos.eqb andb orb].
      - rewrite !andb_true_r, !andb_false_r, orb_false_r. destruct (f_dot f); cbn [negb bind]; [reflexivity|].
        rewrite (zread_pos (d ++ [47; 46]) 47 (0 :: q)); [|unfold B; rewrite <- app_assoc; reflexivity|zl; lia]. reflexivity.
      - rewrite !andb_false_r. reflexivity. }
    assert (N1 : c1 <> 47) by (intros ->; apply Ns; right; now left). destruct (list_eq_dec Z.eq_dec (46 :: c1 :: b0) [46]) as [E|_]; [discriminate|]. cbn [andb orb].
    rewrite (zread_pos (d ++ [47; 46]) c1 (b0 ++ (if isdir then [47] else []) ++ 0 :: q) B (zlen d + 1 + 1)); [|unfold B; rewrite <- app_assoc; reflexivity|zl; lia]. cbn [bind]. replace (c1 =? 47) with false by lia.
    match goal with |- context [if ?c then Ret false else Ret false] => replace (if c then Ret false else Ret false) with (Ret false) by (destruct c; reflexivity) end. cbn [bind]. rewrite (zlen_cons c1 b0).
    destruct b0 as [|c2 b0].
    { change (zlen (@nil Z)) with 0. destruct isdir; cbn [Z.add Z.eqb Pos.add Pos.eqb andb orb].
      - rewrite andb_true_r. rewrite (zread_pos (d ++ [47; 46; c1]) 47 (0 :: q) B (zlen d + 1 + 2)); [|unfold B; rewrite <- app_assoc; reflexivity|zl; lia]. cbn [bind]. rewrite Z.eqb_refl, andb_true_r. destruct (Z.eqb_spec c1 46) as [->|Hc1].
        + destruct (list_eq_dec Z.eq_dec [46; 46] [46; 46]) as [_|E]; [|congruence]. destruct (f_dotdot f); reflexivity.
        + destruct (list_eq_dec Z.eq_dec [46; c1] [46; 46]) as [E|_]; [congruence|]. destruct (f_dotdot f); reflexivity.
      - rewrite andb_false_r. destruct (list_eq_dec Z.eq_dec [46; c1] [46; 46]); reflexivity. }
    assert (N2 : c2 <> 47) by (intros ->; apply Ns; right; right; now left). destruct (list_eq_dec Z.eq_dec (46 :: c1 :: c2 :: b0) [46; 46]) as [E|_]; [discriminate|].
    rewrite (zread_pos (d ++ [47; 46; c1]) c2 (b0 ++ (if isdir then [47] else []) ++ 0 :: q) B (zlen d + 1 + 2)); [|unfold B; rewrite <- app_assoc; reflexivity|zl; lia]. cbn [bind]. replace (c2 =? 47) with false by lia. rewrite andb_false_r.
    match goal with |- context [if ?c then Ret false else Ret false] => destruct c; reflexivity end. }
  destruct mk.
  - set (path := d ++ [47] ++ b ++ [47]) in *. assert (Lp : zlen path = zlen d + zlen b + 2) by (unfold path; zl; lia).
    rewrite (zread_pos (d ++ [47] ++ b) 47 (0 :: r)); [|unfold path; rewrite <- !app_assoc; reflexivity|zl; lia]. cbn [bind Z.eqb Pos.eqb].
    assert (Ep : path ++ 0 :: r = (d ++ [47] ++ b) ++ 47 :: 0 :: r) by (unfold path; rewrite <- !app_assoc; reflexivity). rewrite Ep at 1. rewrite zwrite_at by (zl; lia). cbn [bind].
    rewrite (rchr_slash _ _ d b (0 :: 0 :: r)).
    + cbn [bind]. rewrite zwrite_at by (zl; lia). cbn [bind]. rewrite <- Ep. assert (Eq : path ++ 0 :: r = d ++ 47 :: b ++ [47] ++ 0 :: r) by (unfold path; rewrite <- !app_assoc; reflexivity). rewrite Eq in *. rewrite (zlen_app b). change (zlen [47]) with 1. specialize (Cut true r L). cbv zeta in Cut. replace (zlen path - 1 + 1 - (zlen d + 1)) with (zlen b + 1) by lia. exact Cut.
    + rewrite <- !app_assoc. reflexivity.
    + lia.
    + rewrite Ep in L. revert L. zl. lia.
    + unfold path in By. change (d ++ 47 :: b) with (d ++ [47] ++ b). unfold bytes in *. rewrite !Forall_app in *. intuition.
    + exact Ns.
  - set (path := d ++ [47] ++ b ++ []) in *. assert (Lp : zlen path = zlen d + zlen b + 1) by (unfold path; rewrite app_nil_r; zl; lia). assert (Ep : path = d ++ 47 :: b) by (unfold path; rewrite app_nil_r; reflexivity).
    rewrite (zread_pos (d ++ [47] ++ b1) x (0 :: r)); [|rewrite Ep, Eb; change (d ++ 47 :: b1 ++ [x]) with (d ++ [47] ++ b1 ++ [x]); rewrite <- !app_assoc; reflexivity|zl; lia]. cbn [bind]. replace (x =? 47) with false by lia. cbn [bind].
    rewrite (rchr_slash _ _ d b (0 :: r)).
    + cbn [bind]. assert (Eq : path ++ 0 :: r = d ++ 47 :: b ++ [] ++ 0 :: r) by (rewrite Ep, <- app_assoc; reflexivity). rewrite Eq in *. rewrite (zlen_app b). change (zlen (@nil Z)) with 0. specialize (Cut false r L). cbv zeta in Cut. replace (zlen path - (zlen d + 1)) with (zlen b + 0) by lia. exact Cut.
    + rewrite Ep, <- app_assoc. reflexivity.
    + lia.
    + exact L.
    + now rewrite <- Ep.
    + exact Ns.
Qed.
Lemma list_name_ok f n r : name_ok n -> zlen (n_path n ++ 0 :: r) < 2 ^ 63 -> exists s, holds s (shown f n) /\ list_name (flf_val f) (n_path n ++ 0 :: r) = Ret (opt_name f n s).
Proof.
  intros H L. unfold shown. destruct (f_nopath f) eqn:E.
  - eexists. split; [|apply list_entry_ok; assumption]. exists (n_dir n ++ [47]), (0 :: r). unfold holds_in. cbn [sb so sz]. split; [unfold n_path; now rewrite <- !app_assoc|]. split; [zl; lia|]. split; [reflexivity|exact L].
  - eexists. split; [|apply list_path_ok; assumption]. exists [], (0 :: r). unfold holds_in. cbn [sb so sz app]. repeat split; auto.
Qed.
(** glob's strings: a name and its NUL *)
Definition is_name (b : list Z) (n : name) : Prop := name_ok n /\ zlen b < 2 ^ 63 /\ exists r, b = n_path n ++ 0 :: r.
Lemma list_loop_ok f pathv ns : Forall2 is_name pathv ns -> forall k files ts, Forall2 holds files ts ->
  exists files', Forall2 holds files' (ts ++ map (shown f) (filter (listed f) ns)) /\ list_loop (flf_val f) (fun _ => true) pathv k files = Ret (0, files').
Proof.
  induction 1 as [|b n pathv ns (H & L & r & ->) F IH]; intros k files ts Hf; cbn [list_loop filter map].
  - exists files. rewrite app_nil_r. auto.
  - destruct (list_name_ok f n r H L) as (s & Hs & ->). cbn [bind]. unfold opt_name. destruct (listed f n); [|apply IH; exact Hf]. cbn [map].
    destruct (IH (k + 1) (files ++ [s]) (ts ++ [shown f n])) as (files' & F' & E). { apply Forall2_app; [exact Hf|constructor; [exact Hs|constructor]]. } rewrite <- app_assoc in F'. eauto.
Qed.
Lemma list_loop_oom f add pathv ns : Forall2 is_name pathv ns -> forall k files, (exists files', list_loop (flf_val f) add pathv k files = Ret (0, files')) \/ list_loop (flf_val f) add pathv k files = Ret (-1, []).
Proof.
  induction 1 as [|b n pathv ns (H & L & r & ->) F IH]; intros k files; cbn [list_loop]; [eauto|]. destruct (list_name_ok f n r H L) as (s & Hs & ->). cbn [bind]. unfold opt_name. destruct (listed f n); [|apply IH]. destruct (add k); [apply IH|auto].
Qed.
