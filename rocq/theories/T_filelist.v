(** C70: filelist. *)
From Verif Require Import Base Cstr M_stringptr D_stringptr P_stringptr M_filelist S_filelist P_filelist.

(** the directory searched: none or an empty one stands for "./" *)
Definition search_dir (dir : option sp) (d : list Z) : Prop :=
  (dir = None /\ d = [46; 47]) \/ (exists s, dir = Some s /\ holds s [] /\ d = [46; 47]) \/ (exists s, dir = Some s /\ holds s d /\ d <> []).
Definition sep (d : list Z) : list Z := if last d 0 =? 47 then [] else [47].
Definition gflags (f : flf) : Z := if f_hidden f then 130 else 2.

Section Search.
Variables (glob : list Z -> Z -> Z * list (list Z)) (new : bool) (add : Z -> bool) (buf : list Z).
(** what happens after glob *)
Definition after_glob (f : flf) (pat : list Z) : out (Z * list sp * option (list Z * Z)) :=
  let (ret, pathv) := glob pat (gflags f) in
  if negb (ret =? 0) then Ret (ret, [], Some (pat, gflags f))
  else if negb new then Ret (-1, [], Some (pat, gflags f))
  else
    let a1 := negb (f_hidden f) && f_dot f in
    let a2 := negb (f_hidden f) && f_dotdot f in
    let k1 := if a1 then 1 else 0 in
    let* (ret, files) := list_loop (flf_val f) add pathv (if a2 then k1 + 1 else k1)
      ((if a1 && add 0 then [mkSp [46; 47; 0] 0 2] else []) ++ (if a2 && add k1 then [mkSp [46; 46; 47; 0] 0 3] else [])) in
    Ret (ret, files, Some (pat, gflags f)).
Lemma search_ok dir mask d m f : zlen buf = PATH_MAX -> search_dir dir d -> holds mask m -> nz d -> nz m -> m <> [] -> zlen d < 2 ^ 62 -> zlen m < 2 ^ 62 ->
  filelist_search glob new add buf dir (Some mask) (flf_val f) =
  if zlen (escape d) + zlen m + 2 <? PATH_MAX then after_glob f (escape d ++ sep d ++ m) else Ret (-1, [], None).
Proof.
  intros Lb Hd Hm Nd Nm Nem Bd Bm. unfold filelist_search. cbv zeta. rewrite has_hidden, has_dot, has_dotdot. 
  set (dot := mkSp [46; 47; 0] 0 2). assert (Hdot : holds dot [46; 47]) by (exists [], [0]; unfold holds_in; cbn; repeat split; reflexivity || lia).
  set (dir' := match dir with None => dot | Some d0 => if sz d0 =? 0 then dot else d0 end).
  assert (Hdir : holds dir' d /\ d <> []).
  { unfold dir'. destruct Hd as [[-> ->]|[(s & -> & H & ->)|(s & -> & H & Ne)]]; [split; [exact Hdot|discriminate]| |].
    - destruct (holds_size _ _ H) as [-> _]. cbn. split; [exact Hdot|discriminate].
    - destruct (holds_size _ _ H) as [E _]. rewrite E. destruct (Z.eqb_spec (zlen d) 0) as [Q|Q]; [apply zlen_0 in Q; congruence|auto]. }
  clearbody dir'. clear Hd dir. destruct Hdir as [Hd Ned]. destruct (holds_size _ _ Hd) as [Sd _]. destruct (holds_size _ _ Hm) as [Sm _].
  assert (Lm : 0 < zlen m) by (destruct m; [congruence|]; zl; pose proof (zlen_nonneg m); lia). rewrite Sm. replace (zlen m =? 0) with false by lia.
  destruct (exists_last Ned) as (d0 & x & Ed). assert (Ls : last d 0 = x) by (rewrite Ed; apply last_last).
  assert (Rd : zread (sb dir') (so dir' + (sz dir' - 1)) = Ret x). { replace (sz dir' - 1) with (zlen d0) by (rewrite Sd, Ed; zl; lia). apply (holds_read dir' d0 x []). now rewrite <- Ed. }
  rewrite Rd. cbn [bind]. rewrite Sd. unfold sep. rewrite Ls. pose proof (zlen_nonneg d). pose proof (escape_len d) as Le. rewrite u64_id by (destruct (negb (x =? 47)); lia).
  destruct (Z.ltb_spec (zlen (escape d) + zlen m + 2) PATH_MAX) as [A|A].
  2: { destruct (PATH_MAX <? _); [reflexivity|]. destruct Hd as (pre & post & E & So & _). rewrite E, So. unfold cpystr_escape.
       destruct (escape_loop_safe d (S (Z.to_nat (zlen d))) [] buf pre post) as (i & b & Lb' & R & I); [unfold zlen; rewrite Nat2Z.id; lia|exact Lb|]. cbn [app] in R. change (zlen (@nil Z)) with 0 in R. rewrite R. cbn [bind]. destruct I as [-> | ->]; [reflexivity|]. change (zlen (@nil Z)) with 0. rewrite Z.add_0_l.
       destruct (Z_lt_dec (zlen (escape d)) (2 ^ 63)) as [W|W]; [rewrite u64_id by lia; now replace (PATH_MAX <=? _) with true by lia|].
       exfalso. assert (Q : forall l : list Z, zlen (escape l) <= 2 * zlen l). { induction l as [|c l IH]; [reflexivity|]. cbn [escape flat_map]. fold (escape l). rewrite zlen_app, zlen_cons. destruct (special c); zl; lia. } specialize (Q d). lia. }
  unfold PATH_MAX in *. replace (4096 <? _) with false by (destruct (negb (x =? 47)); lia). destruct Hd as (pre & post & E & So & _). rewrite E, So. unfold cpystr_escape.
  pose proof (escape_loop_ok d (S (Z.to_nat (zlen d))) [] buf pre post) as R. cbn [app] in R. change (zlen (@nil Z)) with 0 in R. rewrite R by (unfold PATH_MAX; (unfold zlen; rewrite Nat2Z.id; lia) || lia). clear R. cbn [bind]. rewrite !Z.add_0_l. rewrite u64_id by lia. replace (4096 <=? _) with false by lia.
  set (e := escape d) in *. pose proof (holds_reads mask m Hm) as Rm. rewrite Sm in Rm. set (q := zdrop (zlen e) buf). assert (Lq : zlen q = 4096 - zlen e) by (unfold q; rewrite zlen_zdrop; lia).
  assert (Step : forall w r, zlen m + 1 <= zlen r -> nz w -> (let* b := memcpy (w ++ r) (zlen w) (sb mask) (so mask) (zlen m) in let* b := zwrite b (zlen w + zlen m) 0 in let* n := strlen b 0 in zreads b 0 n) = Ret (w ++ m)).
  { intros w r Lr Nw. unfold memcpy. rewrite Rm. cbn [bind]. destruct (zsplit (zlen m) r ltac:(lia)) as (r1 & r2 & -> & L1). rewrite zwrites_at by (reflexivity || lia). cbn [bind]. destruct r2 as [|y r2]; [rewrite app_nil_r in Lr; lia|]. rewrite app_assoc. rewrite zwrite_at by (zl; lia). cbn [bind].
    assert (Nwm : nz (w ++ m)) by (now apply nz_app). rewrite strlen_0 by exact Nwm. cbn [bind]. change ((w ++ m) ++ 0 :: r2) with ([] ++ (w ++ m) ++ 0 :: r2). now apply zreads_at. }
  assert (Bn : forall w r, zlen m + 1 <= zlen r -> nz w -> forall (A : Type) (K : list Z -> out A), (let* b := memcpy (w ++ r) (zlen w) (sb mask) (so mask) (zlen m) in let* b := zwrite b (zlen w + zlen m) 0 in let* n := strlen b 0 in let* p := zreads b 0 n in K p) = K (w ++ m)).
  { intros w r Lr Nw A' K. specialize (Step w r Lr Nw). destruct (memcpy _ _ _ _ _) as [b| |]; cbn [bind] in *; try discriminate. destruct (zwrite b _ 0) as [b'| |]; cbn [bind] in *; try discriminate. destruct (strlen b' 0) as [n| |]; cbn [bind] in *; try discriminate. rewrite Step. reflexivity. }
  assert (Ne : nz e) by (unfold e; now apply escape_nz).
  destruct (x =? 47) eqn:X; cbn [negb bind].
  - rewrite (Bn e q) by (assumption || lia). unfold after_glob, gflags. destruct (f_hidden f); reflexivity.
  - destruct q as [|y q2]; [change (zlen (@nil Z)) with 0 in Lq; lia|]. rewrite zlen_cons in Lq. rewrite zwrite_at by reflexivity. cbn [bind]. replace (e ++ 47 :: q2) with ((e ++ [47]) ++ q2) by (now rewrite <- app_assoc). replace (zlen e + 1) with (zlen (e ++ [47])) by (zl; lia).
    rewrite (Bn (e ++ [47]) q2); [|lia|apply nz_app; split; [exact Ne|repeat constructor; lia]]. rewrite <- app_assoc. unfold after_glob, gflags. destruct (f_hidden f); reflexivity.
Qed.
End Search.

(** C70: glob gets the escaped directory, a slash if there is none, and the mask, unless this is too
    long for the buffer (which is never overrun); its failure is returned *)
Theorem c70_pattern glob new add buf dir mask d m f : zlen buf = PATH_MAX -> search_dir dir d -> holds mask m -> nz d -> nz m -> m <> [] -> zlen d < 2 ^ 62 -> zlen m < 2 ^ 62 ->
  let pat := escape d ++ sep d ++ m in
  (zlen (escape d) + zlen m + 2 < PATH_MAX -> fst (glob pat (gflags f)) <> 0 -> filelist_search glob new add buf dir (Some mask) (flf_val f) = Ret (fst (glob pat (gflags f)), [], Some (pat, gflags f))) /\
  (PATH_MAX <= zlen (escape d) + zlen m + 2 -> filelist_search glob new add buf dir (Some mask) (flf_val f) = Ret (-1, [], None)).
Proof.
  intros Lb Hd Hm Nd Nm Ne Bd Bm pat. rewrite (search_ok glob new add buf dir mask d m f) by assumption. split.
  - intros A G. replace (_ <? PATH_MAX) with true by lia. unfold after_glob. fold pat. destruct (glob pat (gflags f)) as [ret pathv]. cbn [fst] in *. now replace (ret =? 0) with false by lia.
  - intros A. now replace (_ <? PATH_MAX) with false by lia.
Qed.
Print Assumptions c70_pattern.
(** C70: the directory part of the pattern matches that directory only, whatever brackets mean *)
Theorem c70_literal br d P s : ~ In 92 d -> (matches br (escape d ++ P) s <-> exists m, s = d ++ m /\ matches br P m).
Proof. exact (escape_literal br d P s). Qed.
Print Assumptions c70_literal.
(** C70: a backslash in the directory is not escaped: the directory is not found, another one is *)
Theorem c70_backslash_refuted br a c b : ~ In 92 (a ++ [c] ++ b) -> Forall (fun x => special x = false) (a ++ [c] ++ b) -> c <> 92 ->
  let d := a ++ [92; c] ++ b in matches br (escape d) (a ++ [c] ++ b) /\ ~ matches br (escape d) d.
Proof.
  intros N S Nc d. assert (Es : forall l, Forall (fun x => special x = false) l -> escape l = l). { induction 1 as [|x l Hx H IH]; [reflexivity|]. cbn [escape flat_map]. fold (escape l). rewrite Hx, IH. reflexivity. }
  assert (Ed : escape d = d). { apply Es. unfold d. rewrite !Forall_app in *. destruct S as (S1 & S2 & S3). split; [exact S1|]. split; [|exact S3]. constructor; [reflexivity|exact S2]. } rewrite Ed.
  assert (Na : ~ In 92 a) by (intros I; apply N, in_or_app; now left). assert (Nb : ~ In 92 b) by (intros I; apply N, in_or_app; right; apply in_or_app; now right). rewrite !Forall_app in S. destruct S as (Sa & Sc & Sb).
  assert (Id : forall l, ~ In 92 l -> Forall (fun x => special x = false) l -> forall s, matches br l s <-> s = l).
  { intros l Nl Sl s. rewrite <- (Es l Sl) at 1. rewrite <- (app_nil_r (escape l)). rewrite (escape_literal br l [] s Nl). split; [intros (m & -> & M); inversion M; now rewrite app_nil_r|]. intros ->. exists []. split; [now rewrite app_nil_r|constructor]. }
  assert (Ma : forall P s, matches br (a ++ P) s <-> exists m, s = a ++ m /\ matches br P m). { intros P s. rewrite <- (Es a Sa) at 1. now apply escape_literal. }
  unfold d. split.
  - apply Ma. exists ([c] ++ b). split; [reflexivity|]. apply m_esc. now apply Id.
  - intros M. apply Ma in M as (m & E & M). apply app_inv_head in E. subst m. inversion M; subst; congruence.
Qed.
Print Assumptions c70_backslash_refuted.
(** C70: if glob finds names and memory suffices, the files are the expected ones, in glob's order *)
Theorem c70_files glob buf dir mask d m f pathv ns : zlen buf = PATH_MAX -> search_dir dir d -> holds mask m -> nz d -> nz m -> m <> [] -> zlen d < 2 ^ 62 -> zlen (escape d) + zlen m + 2 < PATH_MAX ->
  glob (escape d ++ sep d ++ m) (gflags f) = (0, pathv) -> Forall2 is_name pathv ns ->
  exists files, Forall2 holds files (expected f ns) /\
    filelist_search glob true (fun _ => true) buf dir (Some mask) (flf_val f) = Ret (0, files, Some (escape d ++ sep d ++ m, gflags f)).
Proof.
  intros Lb Hd Hm Nd Nm Ne Bd A G F. assert (Bm : zlen m < 2 ^ 62) by (unfold PATH_MAX in A; pose proof (zlen_nonneg (escape d)); lia). rewrite (search_ok glob true (fun _ => true) buf dir mask d m f) by assumption. replace (_ <? PATH_MAX) with true by lia. unfold after_glob. rewrite G. cbn [Z.eqb negb]. rewrite !andb_true_r.
  set (f1 := if negb (f_hidden f) && f_dot f then [mkSp [46; 47; 0] 0 2] else []). set (f2 := if negb (f_hidden f) && f_dotdot f then [mkSp [46; 46; 47; 0] 0 3] else []).
  assert (Hx : Forall2 holds (f1 ++ f2) (extra f)).
  { assert (H1 : holds (mkSp [46; 47; 0] 0 2) [46; 47]) by (exists [], [0]; unfold holds_in; cbn; repeat split; reflexivity || lia). assert (H2 : holds (mkSp [46; 46; 47; 0] 0 3) [46; 46; 47]) by (exists [], [0]; unfold holds_in; cbn; repeat split; reflexivity || lia).
    unfold f1, f2, extra. destruct (f_hidden f), (f_dot f), (f_dotdot f); cbn [negb andb app]; repeat constructor; assumption. }
  match goal with |- context [list_loop _ _ _ ?k _] => destruct (list_loop_ok f pathv ns F k (f1 ++ f2) (extra f) Hx) as (files & Hf & E) end. cbv zeta. rewrite E. cbn [bind]. exists files. split; [exact Hf|reflexivity].
Qed.
Print Assumptions c70_files.
(** C70: whatever allocation fails, the result is 0 or -1 *)
Theorem c70_oom glob new add buf dir mask d m f pathv ns : zlen buf = PATH_MAX -> search_dir dir d -> holds mask m -> nz d -> nz m -> m <> [] -> zlen d < 2 ^ 62 -> zlen (escape d) + zlen m + 2 < PATH_MAX ->
  glob (escape d ++ sep d ++ m) (gflags f) = (0, pathv) -> Forall2 is_name pathv ns ->
  exists r files c, filelist_search glob new add buf dir (Some mask) (flf_val f) = Ret (r, files, c) /\ (r = 0 \/ r = -1 /\ files = []).
Proof.
  intros Lb Hd Hm Nd Nm Ne Bd A G F. assert (Bm : zlen m < 2 ^ 62) by (unfold PATH_MAX in A; pose proof (zlen_nonneg (escape d)); lia). rewrite (search_ok glob new add buf dir mask d m f) by assumption. replace (_ <? PATH_MAX) with true by lia. unfold after_glob. rewrite G. cbn [Z.eqb negb]. destruct new; cbn [negb]; [|do 3 eexists; split; [reflexivity|auto]]. cbv zeta.
  match goal with |- context [list_loop _ _ _ ?k ?f0] => destruct (list_loop_oom f add pathv ns F k f0) as [(files & ->)| ->] end; cbn [bind]; do 3 eexists; (split; [reflexivity|auto]).
Qed.
Print Assumptions c70_oom.
(** NULL or empty mask *)
Theorem c70_no_mask glob new add buf dir flags : filelist_search glob new add buf dir None flags = Ret (-1, [], None) /\
  forall mask, holds mask [] -> filelist_search glob new add buf dir (Some mask) flags = Ret (-1, [], None).
Proof. split; [reflexivity|]. intros mask H. unfold filelist_search. cbv zeta. destruct (holds_size _ _ H) as [-> _]. reflexivity. Qed.
Print Assumptions c70_no_mask.
(** dir "a[b", mask "*"; glob finds "a[b/.", "a[b/..", "a[b/c", "a[b/d" (directories but c) *)
Example c70_ex : let glob pat fl := (0, [[97; 91; 98; 47; 46; 47; 0]; [97; 91; 98; 47; 46; 46; 47; 0]; [97; 91; 98; 47; 99; 0]; [97; 91; 98; 47; 100; 47; 0]]) in
  let run fl := (let* (r, files, c) := filelist_search glob true (fun _ => true) (zrepeat 7 4096) (Some (mkSp [97; 91; 98; 0] 0 3)) (Some (mkSp [42; 0] 0 1)) fl in Ret (r, map (fun s => ztake (sz s) (zdrop (so s) (sb s))) files, c)) in
  run 12 = Ret (0, [[99]; [100; 47]], Some ([97; 92; 91; 98; 47; 42], 130)) /\
  run 13 = Ret (0, [[46; 47]; [99]; [100; 47]], Some ([97; 92; 91; 98; 47; 42], 130)) /\
  run 10 = Ret (0, [[97; 91; 98; 47; 46; 46; 47]; [97; 91; 98; 47; 99]; [97; 91; 98; 47; 100; 47]], Some ([97; 92; 91; 98; 47; 42], 130)).
Proof. repeat split; vm_compute; reflexivity. Qed.
Example c70_ex2 : is_name [97; 91; 98; 47; 46; 46; 47; 0] (mkName [97; 91; 98] [46; 46] true) /\ shown (mkFlf false true true true) (mkName [97; 91; 98] [46; 46] true) = [46; 46; 47] /\ listed (mkFlf true false true true) (mkName [97; 91; 98] [46; 46] true) = false /\
  expected (mkFlf true true false false) [mkName [46] [120] false] = [[46; 47]; [46; 46; 47]; [46; 47; 120]].
Proof.
  repeat split; try reflexivity; cbn; try (intros [H|[H|[]]]; discriminate); try discriminate; try (exists []; reflexivity); unfold nz, bytes, byte; repeat (constructor; [lia|]); constructor.
Qed.
