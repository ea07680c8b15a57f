From Verif Require Import Base Cstr M_str S_str P_str S_scan P_scan.

Lemma scan_bounds R nd t k : scan R nd t (Some k) -> occurs R t nd k.
Proof.
  intros S. remember (Some k) as r eqn:E. revert k E. induction S as [m q F|m a n b E F|w t r M S IH]; intros k E0; try discriminate.
  - injection E0 as <-. exists [], m, q. auto.
  - destruct r as [j|]; [|discriminate]. injection E0 as <-. destruct (IH j eq_refl) as (p & m & q & -> & <- & F). exists (w ++ p), m, q. rewrite <- app_assoc. zl. auto.
Qed.
Lemma occurs_bounds R t nd k : occurs R t nd k -> 0 <= k /\ k + zlen nd <= zlen t.
Proof. intros (p & m & q & -> & <- & F). apply Forall2_len in F. zl. zpos. lia. Qed.
Lemma starts_iff t k : 0 <= k <= zlen t -> starts_word t k <-> k = 0 \/ 0 < k /\ sep_before (znth 0 t (k - 1)).
Proof.
  intros H. split; intros [->|X]; try (left; reflexivity); right.
  - destruct X as (p & c & q & -> & L & S). split; [zpos; lia|]. rewrite <- L. now rewrite znth_app_mid.
  - exists (ztake (k - 1) t), (znth 0 t (k - 1)), (zdrop (k - 1 + 1) t). split; [apply zsplit1; lia|]. split; [apply zlen_ztake; lia|tauto].
Qed.
Lemma ends_iff t k : 0 <= k <= zlen t -> ends_word t k <-> k = zlen t \/ k < zlen t /\ sep_after (znth 0 t k).
Proof.
  intros H. split; intros [->|X]; try (left; reflexivity); right.
  - destruct X as (p & c & q & -> & L & S). split; [zl; zpos; lia|]. rewrite <- L. now rewrite znth_app_mid.
  - exists (ztake k t), (znth 0 t k), (zdrop (k + 1) t). split; [apply zsplit1; lia|]. split; [apply zlen_ztake; lia|tauto].
Qed.
Lemma starts_dec t k : 0 <= k <= zlen t -> {starts_word t k} + {~ starts_word t k}.
Proof.
  intros H. destruct (Z.eq_dec k 0) as [->|X]; [left; left; reflexivity|]. destruct (isLeadingWhitespace (znth 0 t (k - 1))) eqn:E.
  - left. apply starts_iff; [exact H|]. right. split; [lia|]. now apply lead_ok.
  - right. intros S. apply starts_iff in S; [|exact H]. destruct S as [S|[_ S]]; [lia|]. apply lead_ok in S. congruence.
Qed.
Lemma ends_dec t k : 0 <= k <= zlen t -> {ends_word t k} + {~ ends_word t k}.
Proof.
  intros H. destruct (Z.eq_dec k (zlen t)) as [->|X]; [left; left; reflexivity|]. destruct (isTrailingWhitespace (znth 0 t k)) eqn:E.
  - left. apply ends_iff; [exact H|]. right. split; [lia|]. now apply trail_ok.
  - right. intros S. apply ends_iff in S; [|exact H]. destruct S as [S|[_ S]]; [lia|]. apply trail_ok in S. congruence.
Qed.
Lemma znth_pre (pre t rest : list Z) i : 0 <= i < zlen t -> znth 0 (pre ++ t ++ 0 :: rest) (zlen pre + i) = znth 0 t i.
Proof. intros H. rewrite znth_app2 by (zpos; lia). replace (zlen pre + i - zlen pre) with i by lia. now rewrite znth_app1 by lia. Qed.

Lemma words_find nd ndrest : nd <> [] -> forall t r, words nd t r -> forall fuel pre rest res c, nz t -> zlen t < Z.of_nat fuel ->
  zread (pre ++ t ++ 0 :: rest) res = Ret c -> (c <> 0 \/ t = []) ->
  findword_loop fuel (pre ++ t ++ 0 :: rest) (nd ++ ndrest) (zlen nd) (zlen pre) res = Ret (option_map (Z.add (zlen pre)) r).
Proof.
  intros Ne t r W. induction W as [t S|t k S ST EN|p t k r S RJ L W IH]; intros fuel pre rest res c N F C C0; (destruct fuel as [|fuel]; [zpos; lia|]); cbn [findword_loop]; rewrite C; cbn [bind].
  - destruct (c =? 0) eqn:Z0; [reflexivity|]. unfold strstr_uc_from. replace (zlen nd =? 0) with false by (destruct nd; [congruence|]; zl; zpos; lia).
    rewrite (scan_find uc_eq uc_match uc_eq_ok nd ndrest Ne t None S _ pre rest N) by (rewrite !app_length; lia). reflexivity.
  - pose proof (scan_bounds _ _ _ _ S) as O. apply occurs_bounds in O as [K1 K2]. assert (Ln : 0 < zlen nd) by (destruct nd; [congruence|]; zl; zpos; lia).
    destruct (c =? 0) eqn:Z0; [destruct C0 as [C0|C0]; [lia|]; subst t; change (zlen (@nil Z)) with 0 in K2; lia|].
    unfold strstr_uc_from. replace (zlen nd =? 0) with false by lia. rewrite (scan_find uc_eq uc_match uc_eq_ok nd ndrest Ne t _ S _ pre rest N) by (rewrite !app_length; lia). cbn [bind option_map].
    assert (A : (if zlen pre + k =? zlen pre then Ret true else let* p := zread (pre ++ t ++ 0 :: rest) (zlen pre + k - 1) in Ret (isLeadingWhitespace p)) = Ret true).
    { destruct (zlen pre + k =? zlen pre) eqn:E; [reflexivity|]. rewrite (zread_ok 0) by (zl; zpos; lia). cbn [bind]. replace (zlen pre + k - 1) with (zlen pre + (k - 1)) by lia. rewrite znth_pre by lia. f_equal. apply lead_ok. apply starts_iff in ST; [|lia]. destruct ST as [ST|[_ ST]]; [lia|exact ST]. }
    rewrite A. cbn [bind]. rewrite (zread_ok 0) by (zl; zpos; lia). cbn [bind].
    assert (B : (znth 0 (pre ++ t ++ 0 :: rest) (zlen pre + k + zlen nd) =? 0) || isTrailingWhitespace (znth 0 (pre ++ t ++ 0 :: rest) (zlen pre + k + zlen nd)) = true).
    { apply ends_iff in EN; [|lia]. destruct EN as [EN|[E1 E2]].
      - rewrite app_assoc. rewrite znth_app_mid by (zl; lia). reflexivity.
      - rewrite <- Z.add_assoc. rewrite znth_pre by lia. apply trail_ok in E2. rewrite E2. apply orb_true_r. }
    rewrite B. reflexivity.
  - pose proof (scan_bounds _ _ _ _ S) as O. apply occurs_bounds in O as [K1 K2]. assert (Ln : 0 < zlen nd) by (destruct nd; [congruence|]; zl; zpos; lia).
    set (T := p ++ t) in *. assert (LT : zlen T = k + 1 + zlen t) by (unfold T; zl; lia).
    destruct (c =? 0) eqn:Z0; [destruct C0 as [C0|C0]; [lia|]; rewrite C0 in K2; change (zlen (@nil Z)) with 0 in K2; lia|].
    unfold strstr_uc_from. replace (zlen nd =? 0) with false by lia. rewrite (scan_find uc_eq uc_match uc_eq_ok nd ndrest Ne T _ S _ pre rest N) by (rewrite !app_length; lia). cbn [bind option_map].
    assert (NT : nz T) by exact N. assert (A : exists a, (if zlen pre + k =? zlen pre then Ret true else let* p := zread (pre ++ T ++ 0 :: rest) (zlen pre + k - 1) in Ret (isLeadingWhitespace p)) = Ret a /\ (a = true -> starts_word T k)).
    { destruct (zlen pre + k =? zlen pre) eqn:E; [exists true; split; [reflexivity|intros _; left; lia]|]. rewrite (zread_ok 0) by (zl; zpos; lia). cbn [bind]. eexists. split; [reflexivity|]. replace (zlen pre + k - 1) with (zlen pre + (k - 1)) by lia. rewrite znth_pre by lia. intros X. apply lead_ok in X. apply starts_iff; [lia|]. right. split; [lia|exact X]. }
    destruct A as (a & -> & A). cbn [bind].
    assert (GO : findword_loop fuel (pre ++ T ++ 0 :: rest) (nd ++ ndrest) (zlen nd) (zlen pre + k + 1) (zlen pre + k) = Ret (option_map (Z.add (zlen pre)) (option_map (Z.add (k + 1)) r))).
    { specialize (IH fuel (pre ++ p) rest (zlen pre + k) (znth 0 T k)). rewrite <- !app_assoc in IH. unfold T at 1. rewrite <- app_assoc. replace (zlen pre + k + 1) with (zlen (pre ++ p)) by (zl; lia). rewrite IH.
      - destruct r; cbn [option_map]; [do 2 f_equal; zl; lia|reflexivity].
      - unfold T in NT. apply nz_app in NT. tauto.
      - lia.
      - rewrite (app_assoc p). fold T. rewrite (zread_ok 0) by (zl; zpos; lia). f_equal. apply znth_pre. lia.
      - left. exact (Forall_znth uc_match (fun x => x <> 0) T k NT ltac:(lia)). }
    destruct a; cbn [bind]; [|exact GO]. rewrite (zread_ok 0) by (zl; zpos; lia). cbn [bind].
    destruct ((znth 0 (pre ++ T ++ 0 :: rest) (zlen pre + k + zlen nd) =? 0) || isTrailingWhitespace (znth 0 (pre ++ T ++ 0 :: rest) (zlen pre + k + zlen nd))) eqn:B; [|exact GO].
    exfalso. apply RJ. split; [auto|]. apply ends_iff; [lia|]. destruct (Z.eq_dec (k + zlen nd) (zlen T)) as [->|X]; [left; reflexivity|right]. split; [lia|].
    rewrite <- Z.add_assoc in B. rewrite znth_pre in B by lia. apply orb_true_iff in B as [B|B]; [|now apply trail_ok].
    exfalso. pose proof (Forall_znth uc_match (fun x => x <> 0) T (k + zlen nd) NT ltac:(lia)). cbv beta in H. lia.
Qed.
Lemma words_total nd : nd <> [] -> forall n t, (length t < n)%nat -> exists r, words nd t r.
Proof.
  intros Ne. induction n as [|n IH]; intros t L; [lia|]. destruct (scan_total uc_eq uc_match uc_eq_ok nd Ne (S (length t)) t) as ([k|] & S); [lia| |exists None; now apply words_none].
  pose proof (scan_bounds _ _ _ _ S) as O. apply occurs_bounds in O as [K1 K2]. assert (Ln : 0 < zlen nd) by (destruct nd; [congruence|]; zl; zpos; lia).
  destruct (starts_dec t k) as [ST|ST]; [lia| |].
  - destruct (ends_dec t (k + zlen nd)) as [EN|EN]; [lia|exists (Some k); now apply words_hit|].
    destruct (zsplit (k + 1) t) as (p & q & -> & Lp); [lia|]. destruct (IH q) as (r & W). { rewrite app_length in L. unfold zlen in Lp. lia. }
    exists (option_map (Z.add (k + 1)) r). apply words_more; auto. tauto.
  - destruct (zsplit (k + 1) t) as (p & q & -> & Lp); [lia|]. destruct (IH q) as (r & W). { rewrite app_length in L. unfold zlen in Lp. lia. }
    exists (option_map (Z.add (k + 1)) r). apply words_more; auto. tauto.
Qed.
Lemma findword_words text rest nd ndrest r : nz text -> nd <> [] -> findword (text ++ 0 :: rest) (nd ++ ndrest) (zlen nd) = Ret r <-> words nd text r.
Proof.
  intros N Ne. assert (H : forall r, words nd text r -> findword (text ++ 0 :: rest) (nd ++ ndrest) (zlen nd) = Ret r).
  { intros r0 W. pose proof (words_find nd ndrest Ne text r0 W (S (length (text ++ 0 :: rest))) [] rest 0 (znth 0 (text ++ 0 :: rest) 0) N) as H. cbn [app] in H. change (zlen (@nil Z)) with 0 in H. unfold findword. rewrite H.
    - destruct r0; reflexivity.
    - rewrite app_length. unfold zlen. lia.
    - apply zread_ok. zl. zpos. lia.
    - destruct text as [|x text]; [right; reflexivity|left]. cbn [app]. apply nz_cons in N as [N _]. exact N. }
  split; [|apply H]. intros E. destruct (words_total nd Ne (S (length text)) text) as (r0 & W); [lia|]. rewrite (H r0 W) in E. injection E as <-. exact W.
Qed.

(** no separator in the word: an occurrence at the start or behind a separator is reached *)
Lemma occurs_drop t w q nd p : t = w ++ q -> zlen w <= p -> occurs uc_match t nd p -> occurs uc_match q nd (p - zlen w).
Proof.
  intros -> L (u & m & v & E & Lu & F). destruct (zsplit (zlen w) u) as (u1 & u2 & -> & L1); [zpos; lia|]. rewrite <- app_assoc in E.
  assert (E2 : w = u1 /\ q = u2 ++ m ++ v). { clear - E L1. revert u1 L1 E. induction w as [|a w IH]; intros [|b u] L1 E; revert L1; zl; zpos; intros; try lia; cbn [app] in E; [auto|]. injection E as -> E. destruct (IH u ltac:(lia) E) as [-> ->]. auto. }
  destruct E2 as [-> ->]. exists u2, m, v. repeat split; auto. revert Lu. zl. lia.
Qed.
Lemma starts_drop w q p : zlen w <= p -> p <= zlen (w ++ q) -> starts_word (w ++ q) p -> starts_word q (p - zlen w).
Proof.
  intros L B S. apply starts_iff in S; [|zpos; lia]. apply starts_iff; [rewrite zlen_app in B; lia|]. destruct S as [S|[P S]]; [left; pose proof (zlen_nonneg w); lia|]. destruct (Z.eq_dec p (zlen w)) as [->|X]; [left; lia|right].
  split; [lia|]. rewrite znth_app2 in S by lia. now replace (p - zlen w - 1) with (p - 1 - zlen w) by lia.
Qed.
Lemma starts_add w q p : zlen w <= p -> p <= zlen (w ++ q) -> p <> zlen w -> starts_word q (p - zlen w) -> starts_word (w ++ q) p.
Proof.
  intros L B X S. apply starts_iff in S; [|rewrite zlen_app in B; lia]. apply starts_iff; [zpos; lia|]. destruct S as [S|[P S]]; [lia|right].
  split; [zpos; lia|]. rewrite znth_app2 by lia. now replace (p - 1 - zlen w) with (p - zlen w - 1) by lia.
Qed.
Lemma ends_drop w q p : zlen w <= p -> p <= zlen (w ++ q) -> ends_word (w ++ q) p <-> ends_word q (p - zlen w).
Proof.
  intros L B. rewrite ends_iff by (zpos; lia). rewrite ends_iff by (rewrite zlen_app in B; lia). rewrite znth_app2 by lia. zl. split; (intros [H|[H S]]; [left; lia|right; split; [lia|exact S]]).
Qed.
Lemma scan_reaches nd t r : Forall (fun c => ~ sep_before c) nd -> scan uc_match nd t r -> forall p, occurs uc_match t nd p -> starts_word t p -> exists j, r = Some j /\ 0 <= j <= p.
Proof.
  intros NS S. induction S as [m q F|m a n b E F|w t r M S IH]; intros p O ST; pose proof (occurs_bounds _ _ _ _ O) as [P1 P2].
  - exists 0. split; [reflexivity|lia].
  - exfalso. apply Forall2_len in F. subst nd. revert P2. zl. zpos. lia.
  - assert (L : zlen w <= p).
    { destruct (Z_lt_le_dec p (zlen w)) as [L|L]; [exfalso|exact L]. destruct M as (m & x & a & n & b & E & -> & F & NR). pose proof (Forall2_len _ _ _ F) as Lm. rewrite zlen_app in L. change (zlen [x]) with 1 in L.
      apply starts_iff in ST; [|pose proof (zlen_nonneg nd); lia]. destruct ST as [->|[P ST]].
      - apply NR. destruct (occurs_znth _ _ _ O (zlen m)) as [_ X]; [subst nd; zl; zpos; lia|]. unfold uc_match. rewrite <- app_assoc in X. cbn [app] in X. rewrite Z.add_0_l, znth_app_mid in X by reflexivity. rewrite X. rewrite E. apply znth_app_mid. exact Lm.
      - rewrite <- app_assoc in ST. rewrite znth_app1 in ST by lia. pose proof (Forall2_at uc_match _ _ F (p - 1) ltac:(lia)) as G. unfold uc_match in G.
        assert (SU : to_upper (znth 0 m (p - 1)) = znth 0 m (p - 1)). { unfold sep_before in ST. cbn [In] in ST. unfold to_upper. destruct ((97 <=? _) && _) eqn:EE; [lia|reflexivity]. }
        assert (NA : ~ sep_before (znth 0 a (p - 1))). { rewrite E in NS. apply Forall_app in NS as [NS _]. exact (Forall_znth uc_match _ a (p - 1) NS ltac:(lia)). }
        apply NA. rewrite <- G, SU. exact ST. }
    destruct (IH (p - zlen w)) as (j & -> & J); [eapply occurs_drop; eauto|apply starts_drop; auto; zpos; lia|]. exists (zlen w + j). split; [reflexivity|zpos; lia].
Qed.
Lemma words_reaches nd t r : nd <> [] -> Forall (fun c => ~ sep_before c) nd -> words nd t r -> forall p, whole_word t nd p -> exists j, r = Some j /\ 0 <= j <= p.
Proof.
  intros Ne NS W. induction W as [t S|t k S ST EN|p t k r S RJ L W IH]; intros i (O & S' & E').
  - destruct (scan_reaches _ _ _ NS S i O S') as (j & X & _). discriminate.
  - destruct (scan_reaches _ _ _ NS S i O S') as (j & X & J). injection X as <-. eauto.
  - destruct (scan_reaches _ _ _ NS S i O S') as (j & X & J). injection X as <-.
    assert (Ln : 0 < zlen nd) by (destruct nd; [congruence|]; zl; zpos; lia).
    destruct (Z.eq_dec k i) as [->|X]; [destruct RJ; auto|]. pose proof (occurs_bounds _ _ _ _ O) as [P1 P2].
    destruct (IH (i - zlen p)) as (j & -> & J').
    + split; [eapply occurs_drop; eauto; lia|]. split; [apply starts_drop; auto; lia|]. replace (i - zlen p + zlen nd) with (i + zlen nd - zlen p) by lia. apply ends_drop; auto; lia.
    + exists (k + 1 + j). split; [reflexivity|lia].
Qed.
