(** Proofs about the test programs inside the sources. *)
From Verif Require Import Base Bits Cstr M_str M_num M_hex M_mktemp M_proc M_filelib S_num S_stringptr S_filelib L_num P_num P_filelib P_strtest T_log T_mktemp M_selftest.

Lemma cstring_ok s r : nz s -> cstring (s ++ 0 :: r) = Ret s.
Proof. intros N. unfold cstring. rewrite strlen_0 by exact N. cbn [bind]. change (s ++ 0 :: r) with ([] ++ s ++ 0 :: r). now rewrite zreads_at by reflexivity. Qed.
Lemma puts_ok s r : nz s -> puts (s ++ 0 :: r) = Ret (s ++ [10]).
Proof. intros N. unfold puts. now rewrite cstring_ok by exact N. Qed.

(** every number, whatever the conversion *)
Lemma conv_ok conv k : forall ns buf, zlen buf = k -> 0 <= k ->
  (forall n b, In n ns -> zlen b = k -> exists s, is_decimal n s /\ zlen s + 1 <= k /\ conv n b = Ret (s ++ 0 :: zdrop (zlen s + 1) b)) ->
  exists ss, Forall2 is_decimal ns ss /\ conv_run conv buf ns = Ret (concat (map (fun s => s ++ [10]) ss)).
Proof.
  induction ns as [|n ns IH]; intros buf L K H; cbn [conv_run]; [exists []; split; [constructor|reflexivity]|].
  destruct (H n buf (or_introl eq_refl) L) as (s & D & Ls & ->). cbn [bind]. rewrite puts_ok by (eapply decimal_nz; eauto). cbn [bind].
  assert (L' : zlen (s ++ 0 :: zdrop (zlen s + 1) buf) = k) by (zpos; rewrite zlen_app, zlen_cons, zlen_zdrop by lia; lia).
  destruct (IH _ L' K) as (ss & F & ->). { intros m b I Lb. apply H; [now right|exact Lb]. }
  exists (s :: ss). split; [now constructor|]. reflexivity.
Qed.
Lemma decimal_known n ds : is_repr 10 (Z.abs n) ds -> is_decimal n (sign_str (n <? 0) ++ map (digit_char false) ds).
Proof. intros R. exists ds. now split. Qed.
Ltac known := match goal with
  | D : is_decimal ?n ?s |- _ => let ds := fresh in
    assert (s = sign_str (n <? 0) ++ map (digit_char false) ltac:(let r := eval vm_compute in (let fix go k m acc := match k with O => acc | S k => if m <? 10 then m :: acc else go k (m / 10) (m mod 10 :: acc) end in go 20%nat (Z.abs n) []) in exact r))
      as -> by (apply (decimal_fun n); [exact D|apply decimal_known; split; [unfold digits_ok; repeat (constructor; [lia|]); constructor|split; [reflexivity|first [left; reflexivity|right; eexists; eexists; split; [reflexivity|lia]]]]]); clear D
  end.
Lemma itoa_main_ok buf : zlen buf = 128 -> itoa_main buf = Ret (0, [45; 49; 51; 51; 55; 10; 48; 10; 49; 48; 48; 48; 48; 48; 10; 45; 53; 54; 53; 51; 52; 53; 50; 10]).
Proof.
  intros L. unfold itoa_main. destruct (conv_ok itoa 128 [-1337; 0; 100000; -5653452] buf L ltac:(lia)) as (ss & F & ->).
  { intros n b I Lb. destruct (itoa_ok n b) as (s & D & Ls & E); [cbn in I; lia|]. exists s. split; [exact D|]. split; [lia|]. apply E. lia. }
  cbn [bind]. repeat match goal with F : Forall2 _ _ _ |- _ => inversion F; subst; clear F end. repeat known. reflexivity.
Qed.
Lemma utoa_main_ok buf : zlen buf = 128 -> utoa_main buf = Ret (0, [48; 10; 49; 48; 48; 48; 48; 48; 10; 53; 54; 53; 51; 52; 53; 50; 10]).
Proof.
  intros L. unfold utoa_main. destruct (conv_ok utoa 128 [0; 100000; 5653452] buf L ltac:(lia)) as (ss & F & ->).
  { intros n b I Lb. destruct (utoa_ok n b) as (s & D & Ls & E); [cbn in I; lia|]. exists s. split; [exact D|]. split; [lia|]. apply E. lia. }
  cbn [bind]. repeat match goal with F : Forall2 _ _ _ |- _ => inversion F; subst; clear F end. repeat known. reflexivity.
Qed.
Lemma hex_main_ok buf : zlen buf = 16 -> hex_main buf = Ret [true; true; true; true; true; true].
Proof.
  intros L. do 16 (destruct buf as [|? buf]; [exfalso; revert L; zl; lia|]). destruct buf; [|exfalso; revert L; zl; zpos; lia]. vm_compute. reflexivity.
Qed.

(** mktempdir *)
Lemma prefix_nz : nz (removelast prefix).
Proof. repeat (constructor; [lia|]). constructor. Qed.
Lemma six_nz y : six y -> nz y.
Proof. intros [_ F]. now apply alnum_nz. Qed.
Lemma path_nz d y : nz d -> six y -> nz (d ++ removelast prefix ++ y).
Proof. intros N S. rewrite !nz_app. split; [exact N|split; [exact prefix_nz|now apply six_nz]]. Qed.
Lemma mk_shm rand k evs : exists ys y, length ys = k /\ Forall six ys /\ six y /\ let path x := removelast dev_shm ++ removelast prefix ++ x in
  mktempdir_main rand (attempt k MkOk ++ evs) = Ret (0, (path y, 29), map path (ys ++ [y])).
Proof.
  destruct (c71_shm rand (removelast prefix) [] (zrepeat 0 30) 30 k evs prefix_nz ltac:(change (zlen (removelast prefix)) with 14; lia) ltac:(change (zlen (removelast prefix)) with 14; change (zlen (zrepeat 0 30)) with 30; lia)) as (ys & y & H1 & H2 & H3 & E). exists ys, y. split; [exact H1|]. split; [exact H2|]. split; [exact H3|]. cbv zeta in *.
  unfold mktempdir_main. change prefix with (removelast prefix ++ [0]) at 1. rewrite E. cbn [bind]. assert (N := path_nz _ y nz_shm H3). destruct H3 as [L6 _].
  assert (LP : zlen (removelast dev_shm ++ removelast prefix ++ y) = 29) by (rewrite !zlen_app, L6; reflexivity).
  rewrite cstring_ok, strlen_0 by exact N. cbn [bind]. rewrite LP. reflexivity.
Qed.
Lemma mk_tmp rand k k' e evs : e <> MkExist -> exists xs ys y, length xs = S k /\ Forall six xs /\ length ys = k' /\ Forall six ys /\ six y /\
  let path x := removelast tmp ++ removelast prefix ++ x in
  mktempdir_main rand (attempt k MkFail ++ attempt k' e ++ evs) =
    Ret (match e with MkOk => 0 | _ => 1 end, (path y, match e with MkOk => 25 | _ => 0 end), map (fun x => removelast dev_shm ++ removelast prefix ++ x) xs ++ map path (ys ++ [y])).
Proof.
  intros He. destruct (c71_tmp rand (removelast prefix) [] (zrepeat 0 30) 30 k k' e evs prefix_nz ltac:(change (zlen (removelast prefix)) with 14; lia) ltac:(change (zlen (removelast prefix)) with 14; change (zlen (zrepeat 0 30)) with 30; lia) He) as (xs & ys & y & b' & H1 & H2 & H3 & H4 & H5 & E). cbv zeta in E. destruct E as (_ & Tk & _ & E).
  exists xs, ys, y. split; [exact H1|]. split; [exact H2|]. split; [exact H3|]. split; [exact H4|]. split; [exact H5|]. cbv zeta.
  unfold mktempdir_main. change prefix with (removelast prefix ++ [0]) at 1. rewrite E. cbn [bind]. assert (N := path_nz _ y nz_tmp H5). destruct H5 as [L6 _].
  assert (LP : zlen (removelast tmp ++ removelast prefix ++ y) = 25) by (rewrite !zlen_app, L6; reflexivity).
  rewrite <- (ztake_zdrop (zlen (removelast tmp ++ removelast prefix ++ y) + 1) b'), Tk, <- app_assoc. cbn [app].
  rewrite cstring_ok, strlen_0 by exact N. cbn [bind]. rewrite LP. destruct e; [reflexivity|congruence|reflexivity].
Qed.

(** process *)
Lemma streq_skip : forall s f p q a b, nz s ->
  streq_at (length s + f) (p ++ s ++ a) (q ++ s ++ b) (zlen p) (zlen q) = streq_at f ((p ++ s) ++ a) ((q ++ s) ++ b) (zlen (p ++ s)) (zlen (q ++ s)).
Proof.
  induction s as [|c s IH]; intros f p q a b N; [now rewrite !app_nil_r|]. apply nz_cons in N as [Nc N]. cbn [length Nat.add streq_at app]. rewrite !zread_at by auto. cbn [bind]. rewrite Z.eqb_refl. replace (c =? 0) with false by lia.
  specialize (IH f (p ++ [c]) (q ++ [c]) a b N). rewrite <- !app_assoc in IH. cbn [app] in IH. replace (zlen p + 1) with (zlen (p ++ [c])) by (zl; lia). replace (zlen q + 1) with (zlen (q ++ [c])) by (zl; lia). rewrite <- !app_assoc. exact IH.
Qed.

(** fuzzer *)
Lemma line_cases : forall n c, exists a b, line n c = a ++ b /\ ~ In 10 a /\ (b = [] \/ b = [10]) /\ (length (a ++ b) <= n)%nat /\ exists r, c = (a ++ b) ++ r.
Proof.
  induction n as [|n IH]; intros [|x c]; cbn [line]; try (exists [], []; cbn; split; [reflexivity|]; split; [tauto|]; split; [tauto|]; split; [lia|]; eexists; reflexivity).
  destruct (x =? 10) eqn:E.
  - exists [], [10]. assert (x = 10) by lia. subst x. repeat split; auto; [cbn; lia|]. exists c. reflexivity.
  - destruct (IH c) as (a & b & -> & N & B & L & r & Er). exists (x :: a), b. repeat split; auto; [|cbn; cbn in L; lia|exists r; rewrite Er; reflexivity]. intros [H|H]; [lia|auto].
Qed.
Lemma to_nul (l : list Z) : exists s r, l ++ [0] = s ++ 0 :: r /\ nz s.
Proof.
  induction l as [|c l (s & r & E & N)]; [exists [], []; split; [reflexivity|constructor]|]. destruct (Z.eq_dec c 0) as [->|X].
  - exists [], (l ++ [0]). split; [reflexivity|constructor].
  - exists (c :: s), r. cbn. rewrite E. split; [reflexivity|now constructor].
Qed.
Lemma fuzz_ok c s r fuel buf wb b1 : line 63 c ++ [0] = s ++ 0 :: r -> nz s -> bytes s -> zlen buf = 64 -> zlen wb = 64 -> (64 < fuel)%nat ->
  fuzz_main fuel buf wb [b1] (Some c) true =
    match s with [] => Ret (1, []) | _ => Ret (0, match normal (removelast s) with None => [] | Some p => removelast s ++ arrow ++ p ++ [10] end) end.
Proof.
  intros E N B L1 L2 F. unfold fuzz_main, fgets. change (Z.to_nat (64 - 1)) with 63%nat.
  destruct (line_cases 63 c) as (a & b & El & _ & _ & LL & _). rewrite <- El in LL.
  destruct (line 63 c) as [|y l] eqn:LE.
  { destruct s as [|z s]; [reflexivity|]. exfalso. cbn in E. injection E as <- _. apply nz_cons in N as [N _]. congruence. }
  rewrite E. set (w := s ++ 0 :: r) in *. assert (Lw : zlen w <= 64). { rewrite <- E. unfold zlen. rewrite app_length. cbn [length] in LL |- *. lia. }
  destruct (zsplit (zlen w) buf) as (u & v & -> & Lu); [zpos; lia|]. change (u ++ v) with ([] ++ u ++ v). rewrite zwrites_at by (reflexivity || lia). cbn [bind app].
  subst w. rewrite <- app_assoc. cbn [app]. rewrite strlen_0 by exact N. cbn [bind].
  destruct s as [|z0 s0]; [reflexivity|]. destruct (@exists_last _ (z0 :: s0)) as (t & x & Et); [discriminate|]. rewrite Et in *. clear z0 s0 Et.
  rewrite removelast_last.
  replace (zlen (t ++ [x]) =? 0) with false by (zl; zpos; lia). apply nz_app in N as [N _]. apply bytes_app in B as [B _].
  assert (Lt : zlen t + 1 <= 63). { revert Lw. zl. zpos. lia. }
  rewrite <- app_assoc. cbn [app]. rewrite zwrite_at by (zl; lia). cbn [bind negb].
  replace (t ++ 0 :: 0 :: r ++ v) with ([] ++ (t ++ [0]) ++ 0 :: r ++ v) by (cbn [app]; now rewrite <- app_assoc). replace (zlen (t ++ [x])) with (zlen (t ++ [0])) by (zl; lia).
  rewrite zreads_at by reflexivity. cbn [bind].
  destruct (zsplit (4096 - zlen (t ++ [0])) (zrepeat 0 4096)) as (pg & pe & Ep & Lg). { change (zlen (zrepeat 0 4096)) with 4096. zl. zpos. lia. }
  assert (Lpe : zlen pe = zlen (t ++ [0])). { apply (f_equal zlen) in Ep. rewrite zlen_app in Ep. change (zlen (zrepeat 0 4096)) with 4096 in Ep. lia. }
  rewrite Ep. rewrite <- (app_nil_r (pg ++ pe)), <- app_assoc. rewrite zwrites_at by (lia || (rewrite Lg; lia)). cbn [bind]. rewrite app_nil_r. rewrite <- Lg, zdrop_app_exact.
  destruct (zsplit (zlen t + 1) wb) as (o & g & -> & Lo); [zpos; lia|]. rewrite zlen_app in L2.
  pose proof (normalizepath_cstr_ok fuel t [] o g N B ltac:(lia) ltac:(lia) ltac:(unfold zlen in Lt; lia)) as H.
  destruct (normal t) as [p|] eqn:NT.
  - destruct H as (k & H & Lk). rewrite H. cbn [bind]. unfold shown. rewrite cstring_ok by exact N. cbn [bind].
    pose proof (normal_nz t p N NT) as Np.
    rewrite cstring_ok by exact Np. reflexivity.
  - rewrite H. reflexivity.
Qed.
(** process.c: what the assertion sees when awk's answer was read *)
Definition answer : list Z := removelast bfoo.
Lemma answer_nz : nz answer.
Proof. repeat (constructor; [lia|]). constructor. Qed.
Lemma bfoo_eq x q : streq_at (S (length (answer ++ x :: q))) (answer ++ x :: q) bfoo 0 0 = Ret (x =? 0).
Proof.
  pose proof (streq_skip answer (S (S (length q))) [] [] (x :: q) [0] answer_nz) as H. cbn [app] in H. change (zlen (@nil Z)) with 0 in H. change bfoo with (answer ++ [0]).
  rewrite app_length. cbn [length]. replace (S (length answer + S (length q))) with (length answer + S (S (length q)))%nat by lia. rewrite H. cbn [streq_at]. rewrite !zread_at by auto. cbn [bind]. destruct (x =? 0); reflexivity.
Qed.
Lemma no_nul : forall l, nz l -> strlen_l l = UB.
Proof. induction l as [|c l IH]; intros N; [reflexivity|]. apply nz_cons in N as [Nc N]. cbn [strlen_l]. replace (c =? 0) with false by lia. now rewrite IH. Qed.
Section Proc.
Variables (fails : M_proc.step -> bool) (lim k : Z) (t t1 : table) (fds : list Z) (ch : table) (status : Z).
Hypothesis O : process_open fails lim k t = Ret (Opened t1 fds ch).
(** u: the first bytes of the array, x :: q: the rest, unchanged by read *)
Lemma process_pass (u q : list Z) : zlen u = 5 ->
  process_main fails lim k t (u ++ 0 :: q) (Some answer) (Some status) = Ret (Exit 0 (answer ++ [10]), fold_left close fds t1).
Proof.
  intros L. unfold process_main. rewrite O. cbn [bind]. change (u ++ 0 :: q) with ([] ++ u ++ 0 :: q). rewrite zwrites_at by (reflexivity || exact L || (change (zlen answer) with 5; lia)). cbn [bind]. change ([] ++ answer ++ 0 :: q) with (answer ++ 0 :: q).
  rewrite puts_ok by exact answer_nz. cbn [bind]. rewrite bfoo_eq. reflexivity.
Qed.
Lemma process_junk (u s q : list Z) : zlen u = 5 -> nz s -> s <> [] ->
  process_main fails lim k t (u ++ s ++ 0 :: q) (Some answer) (Some status) = Ret (Abort ((answer ++ s) ++ [10]), t1).
Proof.
  intros L N S. unfold process_main. rewrite O. cbn [bind]. change (u ++ s ++ 0 :: q) with ([] ++ u ++ s ++ 0 :: q). rewrite zwrites_at by (reflexivity || exact L || (change (zlen answer) with 5; lia)). cbn [bind]. change ([] ++ answer ++ s ++ 0 :: q) with (answer ++ s ++ 0 :: q).
  assert (P : puts (answer ++ s ++ 0 :: q) = Ret ((answer ++ s) ++ [10])). { rewrite app_assoc. apply puts_ok. apply nz_app. split; [exact answer_nz|exact N]. }
  rewrite P. cbn [bind]. destruct s as [|x s]; [congruence|]. apply nz_cons in N as [Nx N]. change ((x :: s) ++ 0 :: q) with (x :: s ++ 0 :: q). rewrite bfoo_eq. cbn [bind]. replace (x =? 0) with false by lia. reflexivity.
Qed.
Lemma process_over (u s : list Z) : zlen u = 5 -> nz s -> process_main fails lim k t (u ++ s) (Some answer) (Some status) = UB.
Proof.
  intros L N. unfold process_main. rewrite O. cbn [bind]. change (u ++ s) with ([] ++ u ++ s). rewrite zwrites_at by (reflexivity || exact L || (change (zlen answer) with 5; lia)). cbn [bind]. change ([] ++ answer ++ s) with (answer ++ s).
  unfold puts, cstring, strlen. replace (_ && _) with true by (zpos; lia). change (zdrop 0 (answer ++ s)) with (answer ++ s). rewrite no_nul by (apply nz_app; split; [exact answer_nz|exact N]). reflexivity.
Qed.
End Proc.
