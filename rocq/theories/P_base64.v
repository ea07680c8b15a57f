(** Proofs about base64. *)
From Verif Require Import Base Bits M_base64 S_base64.
Ltac Zify.zify_post_hook ::= Z.div_mod_to_equations.

Ltac tup := repeat match goal with |- Ret _ = Ret _ => f_equal | |- (_, _) = (_, _) => f_equal end; try reflexivity; try lia.

Ltac lz := repeat (apply (f_equal2 cons); [lia|]); try reflexivity.

Lemma list_ind3 {A} (P : list A -> Prop) :
  P [] -> (forall a, P [a]) -> (forall a b, P [a; b]) ->
  (forall a b c l, P l -> P (a :: b :: c :: l)) -> forall l, P l.
Proof.
  intros H0 H1 H2 H3. fix IH 1. intros [|a [|b [|c l]]]; [exact H0|exact (H1 a)|exact (H2 a b)|exact (H3 a b c l (IH l))].
Qed.

(** ---------- bit strings ---------- *)
Lemma cut_fuel n : (0 < n)%nat -> forall f1 f2 l, (length l <= f1)%nat -> (length l <= f2)%nat ->
  cut f1 n l = cut f2 n l.
Proof.
  intros Hn f1. induction f1 as [|f1 IH]; intros f2 l H1 H2.
  - destruct l; [|cbn in H1; lia]. destruct f2; [reflexivity|]. cbn. destruct n; [lia|reflexivity].
  - destruct f2 as [|f2].
    + destruct l; [|cbn in H2; lia]. cbn. destruct n; [lia|reflexivity].
    + cbn [cut]. destruct (n <=? length l)%nat eqn:E; [|reflexivity]. f_equal.
      apply IH; rewrite skipn_length; lia.
Qed.

Lemma groups_app n a l : (0 < n)%nat -> length a = n -> groups n (a ++ l) = bits_val a :: groups n l.
Proof.
  intros Hn <-. unfold groups. rewrite app_length.
  destruct (length a + length l)%nat as [|m] eqn:E; [lia|]. cbn [cut].
  rewrite app_length. replace (length a <=? length a + length l)%nat with true by lia.
  rewrite firstn_app, Nat.sub_diag, firstn_O, app_nil_r, firstn_all.
  rewrite skipn_app, Nat.sub_diag, skipn_all. cbn [app skipn map]. f_equal.
  f_equal. apply cut_fuel; lia.
Qed.
Lemma groups_nil n : groups n [] = []. Proof. reflexivity. Qed.

Lemma bits_val_app a b : bits_val (a ++ b) = bits_val a * 2 ^ zlen b + bits_val b.
Proof.
  induction a as [|x a IH]; [cbn; lia|]. cbn [app bits_val]. rewrite IH. zl.
  rewrite Z.pow_add_r by (apply zlen_nonneg). destruct x; lia.
Qed.

Definition oeqb (o : out Z) (v : Z) : bool := match o with Ret x => x =? v | _ => false end.
Lemma oeqb_ok o v : oeqb o v = true -> o = Ret v.
Proof. destruct o; cbn; try discriminate. intros H. f_equal; lia. Qed.


Lemma tbl_ok v : 0 <= v < 64 -> zread base64_tbl v = Ret (alphabet v).
Proof.
  intros H. apply oeqb_ok.
  apply (sweep_ok 64 (fun v => oeqb (zread base64_tbl v) (alphabet v))); [vm_compute; reflexivity|lia].
Qed.

Lemma sweep_eq n (f g : Z -> Z) :
  sweep n (fun x => f x =? g x) = true -> forall x, 0 <= x < Z.of_nat n -> f x = g x.
Proof. intros H x Hx. pose proof (sweep_ok _ _ H x Hx). cbn in *; lia. Qed.

Ltac by_sweep n f g := apply (sweep_eq n f g); [vm_compute; reflexivity|assumption].

(* bytes as bits *)
Lemma b8_hi6 a : byte a -> bits_val (firstn 6 (to_bits 8 a)) = a / 4.
Proof. intros. by_sweep 256%nat (fun a => bits_val (firstn 6 (to_bits 8 a))) (fun a => a / 4). Qed.
Lemma b8_lo2 a : byte a -> bits_val (skipn 6 (to_bits 8 a)) = a mod 4.
Proof. intros. by_sweep 256%nat (fun a => bits_val (skipn 6 (to_bits 8 a))) (fun a => a mod 4). Qed.
Lemma b8_hi4 a : byte a -> bits_val (firstn 4 (to_bits 8 a)) = a / 16.
Proof. intros. by_sweep 256%nat (fun a => bits_val (firstn 4 (to_bits 8 a))) (fun a => a / 16). Qed.
Lemma b8_lo4 a : byte a -> bits_val (skipn 4 (to_bits 8 a)) = a mod 16.
Proof. intros. by_sweep 256%nat (fun a => bits_val (skipn 4 (to_bits 8 a))) (fun a => a mod 16). Qed.
Lemma b8_hi2 a : byte a -> bits_val (firstn 2 (to_bits 8 a)) = a / 64.
Proof. intros. by_sweep 256%nat (fun a => bits_val (firstn 2 (to_bits 8 a))) (fun a => a / 64). Qed.
Lemma b8_lo6 a : byte a -> bits_val (skipn 2 (to_bits 8 a)) = a mod 64.
Proof. intros. by_sweep 256%nat (fun a => bits_val (skipn 2 (to_bits 8 a))) (fun a => a mod 64). Qed.
(* sextets as bits *)
Definition sextet (v : Z) : Prop := 0 <= v < 64.
Lemma b6_all v : sextet v -> bits_val (to_bits 6 v) = v.
Proof. intros. by_sweep 64%nat (fun v => bits_val (to_bits 6 v)) (fun v : Z => v). Qed.
Lemma b6_hi2 v : sextet v -> bits_val (firstn 2 (to_bits 6 v)) = v / 16.
Proof. intros. by_sweep 64%nat (fun v => bits_val (firstn 2 (to_bits 6 v))) (fun v => v / 16). Qed.
Lemma b6_lo4 v : sextet v -> bits_val (skipn 2 (to_bits 6 v)) = v mod 16.
Proof. intros. by_sweep 64%nat (fun v => bits_val (skipn 2 (to_bits 6 v))) (fun v => v mod 16). Qed.
Lemma b6_hi4 v : sextet v -> bits_val (firstn 4 (to_bits 6 v)) = v / 4.
Proof. intros. by_sweep 64%nat (fun v => bits_val (firstn 4 (to_bits 6 v))) (fun v => v / 4). Qed.
Lemma b6_lo2 v : sextet v -> bits_val (skipn 4 (to_bits 6 v)) = v mod 4.
Proof. intros. by_sweep 64%nat (fun v => bits_val (skipn 4 (to_bits 6 v))) (fun v => v mod 4). Qed.

(** one encoded group *)
Definition g3 (a b c : Z) : list Z :=
  [alphabet (a / 4); alphabet (a mod 4 * 16 + b / 16); alphabet (b mod 16 * 4 + c / 64); alphabet (c mod 64)].

Lemma groups6_3 a b c l : byte a -> byte b -> byte c ->
  map alphabet (groups 6 (to_bits 8 a ++ to_bits 8 b ++ to_bits 8 c ++ l)) = g3 a b c ++ map alphabet (groups 6 l).
Proof.
  intros Ha Hb Hc.
  replace (to_bits 8 a ++ to_bits 8 b ++ to_bits 8 c ++ l) with
    (firstn 6 (to_bits 8 a) ++ (skipn 6 (to_bits 8 a) ++ firstn 4 (to_bits 8 b)) ++
     (skipn 4 (to_bits 8 b) ++ firstn 2 (to_bits 8 c)) ++ skipn 2 (to_bits 8 c) ++ l)
    by reflexivity.
  rewrite !groups_app by (cbn; lia). cbn [map]. rewrite !bits_val_app.
  rewrite b8_hi6, b8_lo2, b8_hi4, b8_lo4, b8_hi2, b8_lo6 by assumption.
  reflexivity.
Qed.

Lemma pad_len_3 n : pad_len (3 + n) = pad_len n. Proof. unfold pad_len. lia. Qed.

Lemma b64_3 a b c l : byte a -> byte b -> byte c -> b64 (a :: b :: c :: l) = g3 a b c ++ b64 l.
Proof.
  intros Ha Hb Hc. unfold b64. zl. replace (1 + (1 + (1 + zlen l))) with (3 + zlen l) by lia.
  rewrite pad_len_3. cbn [map concat]. rewrite <- !(app_assoc (to_bits 8 _)).
  rewrite groups6_3 by assumption. now rewrite <- app_assoc.
Qed.
Lemma b64_nil : b64 [] = []. Proof. reflexivity. Qed.
Lemma b64_1 a : byte a -> b64 [a] = [alphabet (a / 4); alphabet (a mod 4 * 16); 61; 61].
Proof.
  intros Ha. unfold b64. change (pad_len (zlen [a])) with 2. cbn [map concat]. rewrite app_nil_r.
  change (Z.to_nat (2 * 2)) with 4%nat. cbn [repeat].
  replace (to_bits 8 a ++ [false; false; false; false]) with
    (firstn 6 (to_bits 8 a) ++ (skipn 6 (to_bits 8 a) ++ [false; false; false; false]) ++ []) by reflexivity.
  rewrite !groups_app by (cbn; lia). rewrite bits_val_app, b8_hi6, b8_lo2 by assumption.
  cbn [bits_val]. change (2 ^ zlen [false; false; false; false]) with 16. cbn [map groups cut length].
  rewrite Z.add_0_r. reflexivity.
Qed.
Lemma b64_2 a b : byte a -> byte b ->
  b64 [a; b] = [alphabet (a / 4); alphabet (a mod 4 * 16 + b / 16); alphabet (b mod 16 * 4); 61].
Proof.
  intros Ha Hb. unfold b64. change (pad_len (zlen [a; b])) with 1. cbn [map concat]. rewrite app_nil_r.
  change (Z.to_nat (2 * 1)) with 2%nat. cbn [repeat]. rewrite <- app_assoc.
  replace (to_bits 8 a ++ to_bits 8 b ++ [false; false]) with
    (firstn 6 (to_bits 8 a) ++ (skipn 6 (to_bits 8 a) ++ firstn 4 (to_bits 8 b)) ++
     (skipn 4 (to_bits 8 b) ++ [false; false]) ++ []) by reflexivity.
  rewrite !groups_app by (cbn; lia). rewrite !bits_val_app, b8_hi6, b8_lo2, b8_hi4, b8_lo4 by assumption.
  cbn [bits_val]. change (2 ^ zlen [false; false]) with 4. cbn [map groups cut length].
  change (zlen (firstn 4 (to_bits 8 b))) with 4. rewrite !Z.add_0_r. reflexivity.
Qed.

Lemma zlen_b64 x : bytes x -> zlen (b64 x) = (zlen x + 2) / 3 * 4.
Proof.
  induction x as [|a|a b|a b c l IH] using list_ind3; intros HB; repeat (apply bytes_cons in HB as [? HB]).
  - reflexivity.
  - rewrite b64_1 by assumption. reflexivity.
  - rewrite b64_2 by assumption. reflexivity.
  - rewrite b64_3 by assumption. zl. rewrite IH by assumption. unfold g3. zl. lia.
Qed.

(** ---------- encoder ---------- *)

Lemma zwrite_seq1 (p : list Z) a b q i v : i = zlen p + 1 ->
  zwrite (p ++ a :: b :: q) i v = Ret (p ++ a :: v :: q).
Proof.
  intros ->. change (p ++ a :: b :: q) with (p ++ [a] ++ b :: q). rewrite app_assoc.
  rewrite zwrite_at by zlia. now rewrite <- app_assoc.
Qed.
Lemma zwrite_seq2 (p : list Z) a b c q i v : i = zlen p + 2 ->
  zwrite (p ++ a :: b :: c :: q) i v = Ret (p ++ a :: b :: v :: q).
Proof.
  intros ->. change (p ++ a :: b :: c :: q) with (p ++ [a; b] ++ c :: q). rewrite app_assoc.
  rewrite zwrite_at by zlia. now rewrite <- app_assoc.
Qed.
Lemma zwrite_seq3 (p : list Z) a b c d q i v : i = zlen p + 3 ->
  zwrite (p ++ a :: b :: c :: d :: q) i v = Ret (p ++ a :: b :: c :: v :: q).
Proof.
  intros ->. change (p ++ a :: b :: c :: d :: q) with (p ++ [a; b; c] ++ d :: q). rewrite app_assoc.
  rewrite zwrite_at by zlia. now rewrite <- app_assoc.
Qed.

Lemma n_combine a b c : byte a -> byte b -> byte c ->
  Z.lor (Z.lor (Z.shiftl a 16) (Z.shiftl b 8)) c = a * 65536 + b * 256 + c.
Proof.
  intros. assert (byte 0) by (unfold byte; lia). unfold byte in *.
  rewrite (Z.shiftl_mul_pow2 b) by lia.
  rewrite lor_shiftl_add by lia. replace (a * 2 ^ 16 + b * 2 ^ 8) with ((a * 256 + b) * 2 ^ 8) by lia.
  rewrite lor_add by lia. lia.
Qed.
Lemma n_combine2 a b : byte a -> byte b -> Z.lor (Z.shiftl a 16) (Z.shiftl b 8) = a * 65536 + b * 256.
Proof.
  intros. unfold byte in *. rewrite (Z.shiftl_mul_pow2 b) by lia. rewrite lor_shiftl_add by lia. lia.
Qed.

Lemma emit_ok p m1 m2 m3 m4 q n i :
  0 <= n < 2 ^ 24 ->
  emit_group (p ++ m1 :: m2 :: m3 :: m4 :: q) (zlen p) n i =
  Ret (p ++ [alphabet (n / 262144 mod 64); alphabet (n / 4096 mod 64);
             (if i =? 0 then 61 else alphabet (n / 64 mod 64));
             (if i =? 2 then alphabet (n mod 64) else 61)] ++ q).
Proof.
  intros Hn. unfold emit_group. rewrite !land_63, !Z.shiftr_div_pow2 by lia.
  rewrite tbl_ok by lia. cbn [bind]. rewrite zwrite_at by reflexivity. cbn [bind].
  rewrite tbl_ok by lia. cbn [bind]. rewrite zwrite_seq1 by reflexivity. cbn [bind].
  assert ((if i =? 0 then Ret 61 else zread base64_tbl (n / 2 ^ 6 mod 64)) =
          Ret (if i =? 0 then 61 else alphabet (n / 64 mod 64))) as ->.
  { destruct (i =? 0); [reflexivity|]. rewrite tbl_ok by lia. reflexivity. }
  cbn [bind]. rewrite zwrite_seq2 by reflexivity. cbn [bind].
  assert ((if i =? 2 then zread base64_tbl (n mod 64) else Ret 61) =
          Ret (if i =? 2 then alphabet (n mod 64) else 61)) as ->.
  { destruct (i =? 2); [|reflexivity]. rewrite tbl_ok by lia. reflexivity. }
  cbn [bind]. rewrite zwrite_seq3 by reflexivity. reflexivity.
Qed.

Lemma emit_3 p m1 m2 m3 m4 q a b c : byte a -> byte b -> byte c ->
  emit_group (p ++ m1 :: m2 :: m3 :: m4 :: q) (zlen p)
    (Z.lor (Z.lor (Z.shiftl a 16) (Z.shiftl b 8)) c) 2 = Ret (p ++ g3 a b c ++ q).
Proof.
  intros. rewrite n_combine by assumption. unfold byte in *. rewrite emit_ok by lia.
  change (2 =? 0) with false. change (2 =? 2) with true. cbv iota. unfold g3.
  do 4 f_equal; [f_equal; lia|]. f_equal; [f_equal; lia|]. f_equal; [f_equal; lia|].
  f_equal. f_equal. lia.
Qed.
Lemma emit_2 p m1 m2 m3 m4 q a b : byte a -> byte b ->
  emit_group (p ++ m1 :: m2 :: m3 :: m4 :: q) (zlen p)
    (Z.lor (Z.shiftl a 16) (Z.shiftl b 8)) 1 = Ret (p ++ b64 [a; b] ++ q).
Proof.
  intros. rewrite n_combine2 by assumption. rewrite b64_2 by assumption. unfold byte in *. rewrite emit_ok by lia.
  change (1 =? 0) with false. change (1 =? 2) with false. cbv iota.
  do 4 f_equal; [f_equal; lia|]. f_equal; [f_equal; lia|]. f_equal; f_equal; lia.
Qed.
Lemma emit_1 p m1 m2 m3 m4 q a : byte a ->
  emit_group (p ++ m1 :: m2 :: m3 :: m4 :: q) (zlen p) (Z.shiftl a 16) 0 = Ret (p ++ b64 [a] ++ q).
Proof.
  intros. rewrite b64_1 by assumption. unfold byte in *. rewrite Z.shiftl_mul_pow2 by lia. rewrite emit_ok by lia.
  change (0 =? 0) with true. change (0 =? 2) with false. cbv iota.
  do 4 f_equal; [f_equal; lia|]. f_equal; f_equal; lia.
Qed.

Lemma split4 {A} (l : list A) : 4 <= zlen l -> exists a b c d q, l = a :: b :: c :: d :: q.
Proof. destruct l as [|a [|b [|c [|d q]]]]; intros; zl; zpos; try lia. eauto 6. Qed.

Lemma zread_seq1 (p : list Z) a b q i : i = zlen p + 1 -> zread (p ++ a :: b :: q) i = Ret b.
Proof.
  intros ->. change (p ++ a :: b :: q) with (p ++ [a] ++ b :: q). rewrite app_assoc.
  apply zread_at. zlia.
Qed.
Lemma zread_seq2 (p : list Z) a b c q i : i = zlen p + 2 -> zread (p ++ a :: b :: c :: q) i = Ret c.
Proof.
  intros ->. change (p ++ a :: b :: c :: q) with (p ++ [a; b] ++ c :: q). rewrite app_assoc.
  apply zread_at. zlia.
Qed.

Lemma enc_loop_ok x : forall fuel sp srest dp room,
  bytes x -> zlen x < Z.of_nat fuel -> zlen (b64 x) <= zlen room ->
  base64enc_loop fuel (dp ++ room) (sp ++ x ++ srest) (zlen dp) (zlen sp) (zlen x) =
  Ret (dp ++ b64 x ++ zdrop (zlen (b64 x)) room, zlen dp + zlen (b64 x)).
Proof.
  induction x as [|a|a b|a b c l IH] using list_ind3; intros fuel sp srest dp room HB Hf Hr;
    rewrite zlen_b64 in Hr by assumption;
    repeat (apply bytes_cons in HB as [? HB]); (destruct fuel as [|fuel]; [zlia|]); cbn [base64enc_loop]; zl.
  - change (0 =? 0) with true. cbv iota. rewrite b64_nil. change (zlen []) with 0. rewrite zdrop_0, Z.add_0_r. reflexivity.
  - replace (1 + 0 =? 0) with false by reflexivity. cbn [app]. rewrite zread_at by reflexivity. cbn [bind].
    change (1 + 0 - 1 =? 0) with true. cbv iota. cbn [bind].
    change (1 + 0 - 1 =? 0) with true. cbv iota. cbn [bind].
    destruct (split4 room) as [m1 [m2 [m3 [m4 [q ->]]]]]; [lia|].
    rewrite emit_1 by assumption. cbn [bind].
    destruct fuel as [|fuel]; [lia|]. cbn [base64enc_loop]. change (1 + 0 - 1 =? 0) with true. cbv iota.
    rewrite b64_1 by assumption. f_equal.
  - replace (1 + (1 + 0) =? 0) with false by reflexivity. cbn [app]. rewrite zread_at by reflexivity. cbn [bind].
    change (1 + (1 + 0) - 1 =? 0) with false. cbv iota. rewrite zread_seq1 by reflexivity. cbn [bind].
    change (1 + (1 + 0) - 1 - 1 =? 0) with true. cbv iota. cbn [bind].
    destruct (split4 room) as [m1 [m2 [m3 [m4 [q ->]]]]]; [lia|].
    rewrite emit_2 by assumption. cbn [bind].
    destruct fuel as [|fuel]; [lia|]. cbn [base64enc_loop]. change (1 + (1 + 0) - 1 - 1 =? 0) with true. cbv iota.
    rewrite b64_2 by assumption. f_equal.
  - zpos. replace (1 + (1 + (1 + zlen l)) =? 0) with false by lia.
    cbn [app]. rewrite zread_at by reflexivity. cbn [bind].
    replace (1 + (1 + (1 + zlen l)) - 1 =? 0) with false by lia. rewrite zread_seq1 by reflexivity. cbn [bind].
    replace (1 + (1 + (1 + zlen l)) - 1 - 1 =? 0) with false by lia. rewrite zread_seq2 by lia. cbn [bind].
    destruct (split4 room) as [m1 [m2 [m3 [m4 [q ->]]]]]; [lia|].
    replace (0 + 1 + 1) with 2 by lia. rewrite emit_3 by assumption. cbn [bind].
    specialize (IH fuel (sp ++ [a; b; c]) srest (dp ++ g3 a b c) q). zl.
    rewrite <- !app_assoc in IH. cbn [app] in IH.
    replace (zlen (g3 a b c)) with 4 in IH by reflexivity.
    replace (zlen sp + 1 + 1 + 1) with (zlen sp + (1 + (1 + (1 + 0)))) by lia.
    replace (1 + (1 + (1 + zlen l)) - 1 - 1 - 1) with (zlen l) by lia.
    rewrite IH; [|assumption|lia|rewrite zlen_b64 by assumption; lia].
    rewrite b64_3 by assumption. zl. change (zlen (g3 a b c)) with 4. f_equal. f_equal; [|lia].
    rewrite <- !app_assoc. do 3 f_equal.
    change (m1 :: m2 :: m3 :: m4 :: q) with ([m1; m2; m3; m4] ++ q).
    rewrite zdrop_app2 by zlia. f_equal. change (zlen [m1; m2; m3; m4]) with 4. lia.
Qed.

Lemma base64enc_ok x dst srest :
  bytes x -> 1 + (zlen x + 2) / 3 * 4 <= zlen dst ->
  base64enc dst (x ++ srest) (zlen x) =
  Ret (b64 x ++ 0 :: zdrop (1 + (zlen x + 2) / 3 * 4) dst).
Proof.
  intros HB HL. unfold base64enc.
  pose proof (enc_loop_ok x (S (Z.to_nat (zlen x))) [] srest [] dst HB) as E.
  cbn [app] in E. change (zlen []) with 0 in E. rewrite E by (rewrite ?zlen_b64 by assumption; zlia).
  cbn [bind]. rewrite Z.add_0_l. rewrite zlen_b64 by assumption.
  destruct (zdrop ((zlen x + 2) / 3 * 4) dst) as [|z q] eqn:EQ.
  - apply (f_equal zlen) in EQ. rewrite zlen_zdrop in EQ by zlia. zlia.
  - rewrite zwrite_at by (rewrite zlen_b64 by assumption; reflexivity). do 3 f_equal.
    rewrite <- zdrop_zdrop by zlia. rewrite EQ. reflexivity.
Qed.

(** ---------- enc_str ---------- *)
Definition nonzero (s : list Z) : Prop := Forall (fun c => c <> 0) s.
Lemma nonzero_cons c s : nonzero (c :: s) <-> c <> 0 /\ nonzero s.
Proof. apply Forall_cons_iff. Qed.

Lemma enc_str_loop_ok : forall x fuel sp srest dp room l,
  bytes x -> nonzero x -> zlen x < Z.of_nat fuel -> 0 <= l <= zlen room ->
  exists p q, x = p ++ q /\ (q = [] \/ l - zlen (b64 p) <= 4 /\ zlen p mod 3 = 0) /\
   (l - zlen (b64 p) = l \/ 1 <= l - zlen (b64 p)) /\
   base64enc_str_loop fuel (dp ++ room) (sp ++ x ++ 0 :: srest) (zlen dp) (zlen sp) l =
   Ret (dp ++ b64 p ++ zdrop (zlen (b64 p)) room, zlen dp + zlen (b64 p), zlen sp + zlen p, l - zlen (b64 p)).
Proof.
  assert (Hstop : forall (c : Z) dst src d s l fuel, zread src s = Ret c -> (c = 0 \/ l <= 4) ->
     base64enc_str_loop (S fuel) dst src d s l = Ret (dst, d, s, l)).
  { intros c dst src d s l fuel Hr Hc. cbn [base64enc_str_loop]. rewrite Hr. cbn [bind].
    replace (negb (c =? 0) && (4 <? l)) with false by lia. reflexivity. }
  assert (Hnone : forall x fuel sp srest dp room l, zlen x < Z.of_nat (S fuel) -> (x = [] \/ l <= 4) ->
    exists p q, x = p ++ q /\ (q = [] \/ l - zlen (b64 p) <= 4 /\ zlen p mod 3 = 0) /\
   (l - zlen (b64 p) = l \/ 1 <= l - zlen (b64 p)) /\
   base64enc_str_loop (S fuel) (dp ++ room) (sp ++ x ++ 0 :: srest) (zlen dp) (zlen sp) l =
   Ret (dp ++ b64 p ++ zdrop (zlen (b64 p)) room, zlen dp + zlen (b64 p), zlen sp + zlen p, l - zlen (b64 p))).
  { intros x fuel sp srest dp room l Hf Hx. exists [], x. rewrite b64_nil. change (zlen []) with 0. rewrite zdrop_0, !Z.add_0_r, Z.sub_0_r.
    split; [reflexivity|]. split; [destruct Hx; [left; auto|right; split; [lia|reflexivity]]|]. split; [left; lia|].
    destruct x as [|c x].
    - cbn [app]. apply (Hstop 0); [apply zread_at; reflexivity|auto].
    - cbn [app]. apply (Hstop c); [apply zread_at; reflexivity|]. destruct Hx; [discriminate|auto]. }
  intros x. induction x as [|a|a b|a b c x IH] using list_ind3; intros fuel sp srest dp room l HB HZ Hf Hl;
    (destruct fuel as [|fuel]; [zlia|]).
  - apply Hnone; auto.
  - destruct (Z_le_gt_dec l 4); [apply Hnone; auto|].
    apply bytes_cons in HB as [Ha HB]. apply nonzero_cons in HZ as [Za HZ].
    exists [a], []. rewrite zlen_b64 by (apply bytes_cons; auto). split; [reflexivity|]. split; [auto|].
    change (zlen [a]) with 1. change ((1 + 2) / 3 * 4) with 4. split; [right; lia|].
    cbn [base64enc_str_loop]. cbn [app]. rewrite zread_at by reflexivity. cbn [bind].
    replace (negb (a =? 0) && (4 <? l)) with true by lia.
    rewrite zread_seq1 by reflexivity. cbn [bind]. change (0 =? 0) with true. cbv iota.
    rewrite zread_seq1 by reflexivity. cbn [bind]. change (0 =? 0) with true. cbv iota.
    destruct (split4 room) as [m1 [m2 [m3 [m4 [q ->]]]]]; [lia|].
    rewrite emit_1 by assumption. cbn [bind]. destruct fuel as [|fuel]; [zlia|].
    rewrite (Hstop 0); [|apply zread_seq1; reflexivity|auto].
    rewrite b64_1 by assumption. reflexivity.
  - destruct (Z_le_gt_dec l 4); [apply Hnone; auto|].
    apply bytes_cons in HB as [Ha HB]. apply nonzero_cons in HZ as [Za HZ].
    apply bytes_cons in HB as [Hb HB]. apply nonzero_cons in HZ as [Zb HZ].
    exists [a; b], []. rewrite zlen_b64 by (repeat (apply bytes_cons; split); auto). split; [reflexivity|]. split; [auto|].
    change (zlen [a; b]) with 2. change ((2 + 2) / 3 * 4) with 4. split; [right; lia|].
    cbn [base64enc_str_loop]. cbn [app]. rewrite zread_at by reflexivity. cbn [bind].
    replace (negb (a =? 0) && (4 <? l)) with true by lia.
    rewrite zread_seq1 by reflexivity. cbn [bind]. replace (b =? 0) with false by lia.
    rewrite zread_seq2 by lia. cbn [bind]. change (0 =? 0) with true. cbv iota.
    destruct (split4 room) as [m1 [m2 [m3 [m4 [q ->]]]]]; [lia|].
    replace (0 + 1) with 1 by lia. rewrite emit_2 by assumption. cbn [bind]. destruct fuel as [|fuel]; [zlia|].
    rewrite (Hstop 0); [|apply zread_seq2; lia|auto].
    rewrite b64_2 by assumption. do 2 f_equal. f_equal. lia.
  - destruct (Z_le_gt_dec l 4); [apply Hnone; auto|].
    apply bytes_cons in HB as [Ha HB]. apply nonzero_cons in HZ as [Za HZ].
    apply bytes_cons in HB as [Hb HB]. apply nonzero_cons in HZ as [Zb HZ].
    apply bytes_cons in HB as [Hc HB]. apply nonzero_cons in HZ as [Zc HZ].
    cbn [base64enc_str_loop]. cbn [app]. rewrite zread_at by reflexivity. cbn [bind].
    replace (negb (a =? 0) && (4 <? l)) with true by lia.
    rewrite zread_seq1 by reflexivity. cbn [bind]. replace (b =? 0) with false by lia.
    rewrite zread_seq2 by lia. cbn [bind]. replace (c =? 0) with false by lia.
    destruct (split4 room) as [m1 [m2 [m3 [m4 [q ->]]]]]; [lia|].
    replace (0 + 1 + 1) with 2 by lia. rewrite emit_3 by assumption. cbn [bind].
    destruct (IH fuel (sp ++ [a; b; c]) srest (dp ++ g3 a b c) q (l - 4)) as [p [q' [-> [H1 [H2 E]]]]];
      [assumption|assumption|zlia|zlia|].
    assert (Hp : bytes p) by (apply bytes_app in HB; tauto).
    exists (a :: b :: c :: p), q'. split; [reflexivity|]. rewrite b64_3 by assumption. zl.
    change (zlen (g3 a b c)) with 4 in *.
    split; [destruct H1; [left; auto|right; split; lia]|].
    split; [right; destruct H2; lia|].
    rewrite <- !app_assoc in E. cbn [app] in E.
    rewrite <- app_assoc.
    replace (zlen sp + 1 + 1 + 1) with (zlen sp + (1 + (1 + (1 + 0)))) by lia.
    rewrite E. rewrite <- app_assoc.
    change (m1 :: m2 :: m3 :: m4 :: q) with ([m1; m2; m3; m4] ++ q).
    rewrite (zdrop_app2 (4 + zlen (b64 p))) by zlia.
    change (zlen [m1; m2; m3; m4]) with 4. replace (4 + zlen (b64 p) - 4) with (zlen (b64 p)) by lia.
    tup.
Qed.

Lemma enc_str_ok s rest dst dst_len :
  bytes s -> nonzero s -> 0 <= dst_len <= zlen dst ->
  let need := (zlen s + 2) / 3 * 4 + 1 in
  (need <= dst_len -> base64enc_str dst (s ++ 0 :: rest) dst_len = Ret (1, b64 s ++ 0 :: zdrop need dst)) /\
  (1 <= dst_len < need ->
     let k := (dst_len - 1) / 4 in
     base64enc_str dst (s ++ 0 :: rest) dst_len =
     Ret (0, b64 (ztake (3 * k) s) ++ 0 :: zdrop (4 * k + 1) dst)) /\
  (dst_len = 0 -> base64enc_str dst (s ++ 0 :: rest) dst_len = Ret (0, dst)).
Proof.
  intros HB HZ HL need.
  destruct (enc_str_loop_ok s (S (length (s ++ 0 :: rest))) [] rest [] dst dst_len HB HZ)
    as [p [q [-> [H1 [H2 E]]]]]; [unfold zlen; rewrite app_length; cbn; lia|lia|].
  apply bytes_app in HB as [Hp Hq]. rewrite zlen_b64 in * by assumption.
  cbn [app] in E. change (zlen []) with 0 in E. unfold base64enc_str. rewrite E. cbn [bind]. clear E.
  rewrite Z.add_0_l. subst need. zl. zpos.
  assert (Hcase : 1 <= dst_len ->
    (let* dst0 := zwrite (b64 p ++ zdrop ((zlen p + 2) / 3 * 4) dst) ((zlen p + 2) / 3 * 4) 0 in
     let* b := zread ((p ++ q) ++ 0 :: rest) (0 + zlen p) in Ret (if b =? 0 then 1 else 0, dst0)) =
    Ret (match q with [] => 1 | _ => 0 end, b64 p ++ 0 :: zdrop ((zlen p + 2) / 3 * 4 + 1) dst)).
  { intros Hd. destruct (zdrop ((zlen p + 2) / 3 * 4) dst) as [|z r] eqn:EQ.
    { apply (f_equal zlen) in EQ. rewrite zlen_zdrop in EQ by lia. zl. lia. }
    rewrite zwrite_at by (rewrite zlen_b64; auto). cbn [bind].
    assert (zdrop ((zlen p + 2) / 3 * 4 + 1) dst = r) as ->.
    { rewrite Z.add_comm, <- zdrop_zdrop by lia. rewrite EQ. reflexivity. }
    rewrite <- app_assoc. destruct q as [|c q].
    - cbn [app]. rewrite zread_at by lia. reflexivity.
    - cbn [app]. rewrite zread_at by lia. cbn [bind]. apply Forall_app in HZ as [_ HZ].
      apply Forall_cons_iff in HZ as [HZ _]. replace (c =? 0) with false by lia. reflexivity. }
  split; [|split].
  - intros HN. replace (dst_len - (zlen p + 2) / 3 * 4 =? 0) with false by lia.
    rewrite Hcase by lia. assert (q = []) as ->.
    { destruct H1 as [|[H1 H5]]; [assumption|]. apply zlen_0. lia. }
    rewrite app_nil_r. change (zlen []) with 0. rewrite Z.add_0_r. reflexivity.
  - intros HN. replace (dst_len - (zlen p + 2) / 3 * 4 =? 0) with false by lia.
    rewrite Hcase by lia. destruct q as [|c q]; [zl; lia|].
    destruct H1 as [H1|[H1 H5]]; [discriminate|].
    assert (zlen p = 3 * ((dst_len - 1) / 4)) by lia.
    replace (3 * ((dst_len - 1) / 4)) with (zlen p) by lia. rewrite ztake_app_exact.
    do 4 f_equal. f_equal. lia.
  - intros ->. assert (Hp0 : zlen p = 0) by lia. apply zlen_0 in Hp0. subst p.
    change (0 - (zlen (@nil Z) + 2) / 3 * 4 =? 0) with true. cbv iota. reflexivity.
Qed.

(** ---------- decoder ---------- *)
Definition is_alphab (c : Z) : bool := negb (chrpos c =? -1).

Lemma chrpos_tab c : byte c -> (chrpos c =? -1) = false -> chrpos c = value_of c /\ alphabet (value_of c) = c.
Proof.
  intros Hc. pose proof (sweep_ok 256 (fun c => (chrpos c =? -1) ||
     ((chrpos c =? value_of c) && (alphabet (value_of c) =? c)))) as H.
  specialize (H eq_refl c). cbv beta in H. unfold byte in Hc. specialize (H ltac:(lia)). lia.
Qed.
Lemma value_range c : 0 <= value_of c < 64.
Proof. unfold value_of. repeat match goal with |- context [if ?b then _ else _] => destruct b eqn:? end; lia. Qed.
Lemma alpha_pos v : 0 <= v < 64 -> chrpos (alphabet v) = v.
Proof.
  intros. apply (sweep_eq 64 (fun v => chrpos (alphabet v)) (fun v : Z => v)); [vm_compute; reflexivity|lia].
Qed.
Lemma value_alphabet v : 0 <= v < 64 -> value_of (alphabet v) = v.
Proof.
  intros. apply (sweep_eq 64 (fun v => value_of (alphabet v)) (fun v : Z => v)); [vm_compute; reflexivity|lia].
Qed.
Lemma alphabet_byte v : 0 <= v < 64 -> byte (alphabet v).
Proof.
  intros. pose proof (sweep_ok 64 (fun v => (0 <=? alphabet v) && (alphabet v <? 256)) eq_refl v ltac:(lia)) as E.
  cbv beta in E. unfold byte. lia.
Qed.
Lemma not_alpha c : is_alpha c -> chrpos c <> -1.
Proof. intros [v [Hv <-]]. rewrite alpha_pos; lia. Qed.
Lemma alpha_ne c : is_alpha c -> c <> 61 /\ c <> 0.
Proof.
  intros [v [Hv <-]].
  pose proof (sweep_ok 64 (fun v => negb (alphabet v =? 61) && negb (alphabet v =? 0)) eq_refl v ltac:(lia)) as E.
  cbv beta in E. lia.
Qed.
Lemma is_alpha_intro c : byte c -> (chrpos c =? -1) = false -> is_alpha c.
Proof. intros. exists (value_of c). split; [apply value_range|now apply chrpos_tab]. Qed.

Definition raw4 (v0 v1 v2 v3 : Z) : list Z := [v0 * 4 + v1 / 16; v1 mod 16 * 16 + v2 / 4; v2 mod 4 * 64 + v3].
Lemma b64_raw_4 c0 c1 c2 c3 s :
  b64_raw (c0 :: c1 :: c2 :: c3 :: s) =
  raw4 (value_of c0) (value_of c1) (value_of c2) (value_of c3) ++ b64_raw s.
Proof.
  unfold b64_raw. cbn [map concat].
  generalize (concat (map (fun c => to_bits 6 (value_of c)) s)) as l. intros l.
  pose proof (value_range c0) as H0. pose proof (value_range c1) as H1.
  pose proof (value_range c2) as H2. pose proof (value_range c3) as H3.
  revert H0 H1 H2 H3. generalize (value_of c0) (value_of c1) (value_of c2) (value_of c3).
  clear. intros v0 v1 v2 v3 H0 H1 H2 H3.
  replace (to_bits 6 v0 ++ to_bits 6 v1 ++ to_bits 6 v2 ++ to_bits 6 v3 ++ l) with
    ((to_bits 6 v0 ++ firstn 2 (to_bits 6 v1)) ++ (skipn 2 (to_bits 6 v1) ++ firstn 4 (to_bits 6 v2)) ++
     (skipn 4 (to_bits 6 v2) ++ to_bits 6 v3) ++ l) by reflexivity.
  rewrite !groups_app by (cbn; lia). rewrite !bits_val_app.
  rewrite !b6_all, b6_hi2, b6_lo4, b6_hi4, b6_lo2 by assumption. reflexivity.
Qed.
Lemma b64_raw_nil : b64_raw [] = []. Proof. reflexivity. Qed.

Lemma list_ind4 {A} (P : list A -> Prop) :
  P [] -> (forall a b c d l, P l -> P (a :: b :: c :: d :: l)) ->
  forall l, zlen l mod 4 = 0 -> P l.
Proof.
  intros H0 H4. fix IH 1. intros [|a [|b [|c [|d l]]]] H.
  - exact H0.
  - zl. exfalso. cbn in H. discriminate.
  - zl. exfalso. cbn in H. discriminate.
  - zl. exfalso. cbn in H. discriminate.
  - apply H4. apply IH. clear IH. zl. lia.
Qed.

Lemma b64_raw_app u w : zlen u mod 4 = 0 -> b64_raw (u ++ w) = b64_raw u ++ b64_raw w.
Proof.
  intros H. revert u H. apply list_ind4; [reflexivity|].
  intros a b c d l IH. cbn [app]. rewrite !b64_raw_4, IH. now rewrite app_assoc.
Qed.
Lemma zlen_b64_raw u : zlen u mod 4 = 0 -> zlen (b64_raw u) = zlen u / 4 * 3.
Proof.
  intros H. revert u H. apply list_ind4; [reflexivity|].
  intros a b c d l IH. rewrite b64_raw_4. zl. rewrite IH. change (zlen (raw4 _ _ _ _)) with 3. lia.
Qed.

Definition acc (w : list Z) : Z := fold_left (fun n c => n * 64 + value_of c) w 0.
Lemma acc_snoc w c : acc (w ++ [c]) = acc w * 64 + value_of c.
Proof. unfold acc. now rewrite fold_left_app. Qed.
Lemma acc_range w : 0 <= acc w < 64 ^ zlen w.
Proof.
  induction w as [|c w IH] using rev_ind; [cbn; lia|]. rewrite acc_snoc. zl. zpos.
  rewrite Z.pow_add_r by lia. change (64 ^ (1 + 0)) with 64. pose proof (value_range c). lia.
Qed.

Definition good (s : list Z) (dst_len : Z) (body : list Z) (pad : Z) : Prop :=
  s = body ++ zrepeat 61 pad /\ wellformed body pad /\ zlen s / 4 * 3 + 1 <= dst_len.

(** refutations of well-formedness *)
Fixpoint eqs (s : list Z) : Z := match s with [] => 0 | c :: s => (if c =? 61 then 1 else 0) + eqs s end.
Lemma eqs_app a b : eqs (a ++ b) = eqs a + eqs b.
Proof. induction a; cbn; lia. Qed.
Lemma eqs_nonneg a : 0 <= eqs a.
Proof. induction a as [|c a]; cbn; [lia|]. destruct (c =? 61); lia. Qed.
Lemma eqs_body b : Forall is_alpha b -> eqs b = 0.
Proof.
  induction b as [|c b IH]; [reflexivity|]. intros H. apply Forall_cons_iff in H as [Hc H]. cbn.
  rewrite IH by assumption. destruct (alpha_ne c Hc). replace (c =? 61) with false by lia. reflexivity.
Qed.
Lemma eqs_rep p : 0 <= p -> eqs (zrepeat 61 p) = p.
Proof.
  intros Hp. unfold zrepeat. rewrite <- (Z2Nat.id p) at 2 by lia.
  induction (Z.to_nat p) as [|n IH]; [reflexivity|]. cbn [repeat eqs]. rewrite IH. change (61 =? 61) with true. lia.
Qed.
Lemma good_eqs s L b p : good s L b p -> eqs s = p.
Proof.
  intros [-> [[Hb [Hp _]] _]]. rewrite eqs_app, eqs_body, eqs_rep by (assumption || lia). lia.
Qed.
Lemma good_In s L b p c : good s L b p -> In c s -> c = 61 \/ is_alpha c.
Proof.
  intros [-> [[Hb [Hp _]] _]] Hi. apply in_app_or in Hi as [Hi|Hi].
  - right. rewrite Forall_forall in Hb. auto.
  - left. apply repeat_spec in Hi. auto.
Qed.
Lemma good_order s1 c s2 L b p : good (s1 ++ 61 :: c :: s2) L b p -> c = 61.
Proof.
  intros [E [[Hb [Hp _]] _]].
  assert (H1 : znth 0 (b ++ zrepeat 61 p) (zlen s1) = 61).
  { rewrite <- E. apply znth_app_exact. }
  assert (H2 : znth 0 (b ++ zrepeat 61 p) (zlen s1 + 1) = c).
  { rewrite <- E. change (61 :: c :: s2) with ([61] ++ c :: s2). rewrite app_assoc.
    replace (zlen s1 + 1) with (zlen (s1 ++ [61])) by zlia. apply znth_app_exact. }
  assert (HL : zlen s1 + 1 < zlen b + p).
  { apply (f_equal zlen) in E. revert E. zl. rewrite zlen_zrepeat by lia. zpos. lia. }
  destruct (Z_lt_le_dec (zlen s1) (zlen b)) as [Hlt|Hge].
  - exfalso. zpos. rewrite znth_app1 in H1 by lia.
    assert (Hi : In 61 b) by (rewrite <- H1; apply znth_In; lia).
    rewrite Forall_forall in Hb. destruct (alpha_ne _ (Hb _ Hi)). lia.
  - rewrite znth_app2 in H2 by lia. rewrite znth_zrepeat in H2 by (zpos; lia). auto.
Qed.

Definition dec_post (s D : list Z) (L r : Z) (dst' : list Z) : Prop :=
  zlen dst' = zlen D /\ zdrop L dst' = zdrop L D /\
  ((exists body pad, good s L body pad /\ r = zlen s / 4 * 3 - pad /\
      dst' = b64_raw s ++ 0 :: zdrop (zlen s / 4 * 3 + 1) D) \/
   (r = 0 /\ forall body pad, ~ good s L body pad)).

Lemma frame_pre (p D : list Z) L : zlen p <= L <= zlen D ->
  zlen (p ++ zdrop (zlen p) D) = zlen D /\ zdrop L (p ++ zdrop (zlen p) D) = zdrop L D.
Proof.
  intros H. zpos. split.
  - zl. rewrite zlen_zdrop by lia. lia.
  - rewrite zdrop_app2 by lia. rewrite zdrop_zdrop by lia. f_equal. lia.
Qed.

Lemma rem4 c : 0 <= c -> Z.rem c 4 = c mod 4.
Proof. intros. apply Z.rem_mod_nonneg; lia. Qed.

Lemma zrepeat_snoc (v n : Z) : 0 <= n -> zrepeat v n ++ [v] = zrepeat v (n + 1).
Proof.
  intros. unfold zrepeat. replace (Z.to_nat (n + 1)) with (Z.to_nat n + 1)%nat by lia.
  rewrite repeat_app. reflexivity.
Qed.

Lemma dec_loop_ok D L rest : 0 < L <= zlen D -> forall t fuel u1 u2 body skip,
  bytes t -> nonzero t -> zlen t < Z.of_nat fuel -> L < 2 ^ 64 ->
  zlen (u1 ++ u2 ++ t) <= 2147483647 ->
  zlen u1 mod 4 = 0 -> zlen u2 < 4 ->
  u1 ++ u2 = body ++ zrepeat 61 skip -> Forall is_alpha body -> 0 <= skip <= 2 ->
  0 <= L - zlen u1 / 4 * 3 ->
  exists r dst',
  base64dec_loop fuel (b64_raw u1 ++ zdrop (zlen u1 / 4 * 3) D) (u1 ++ u2 ++ t ++ 0 :: rest)
     (zlen (u1 ++ u2)) (zlen u1 / 4 * 3) (L - zlen u1 / 4 * 3)
     (zlen u1 / 4 * 3 - Z.max 0 (skip - zlen u2)) (acc u2) (zlen (u1 ++ u2)) skip = Ret (r, dst') /\
  dec_post (u1 ++ u2 ++ t) D L r dst'.
Proof.
  intros HL. induction t as [|c t IH]; intros fuel u1 u2 body skip HB HZ Hf HL64 Hcnt Hm Hu2 Hsplit Hbody Hskip Hl;
    (destruct fuel as [|fuel]; [zlia|]); cbn [base64dec_loop];
    pose proof (zlen_b64_raw u1 Hm) as Hraw;
    assert (Hfr : forall s, (forall body pad, ~ good s L body pad) ->
       dec_post s D L 0 (b64_raw u1 ++ zdrop (zlen u1 / 4 * 3) D)) by
     (intros s Hs; rewrite <- Hraw; pose proof (frame_pre (b64_raw u1) D L) as HF;
      destruct HF as [HF1 HF2]; [zlia|]; unfold dec_post; rewrite HF1, HF2; auto).
  - cbn [app]. rewrite app_nil_r. rewrite (app_assoc u1 u2 (0 :: rest)).
    rewrite zread_at by reflexivity. cbn [bind].
    change (0 =? 61) with false. change (0 =? 0) with true. cbv iota. zpos. rewrite rem4 by lia.
    destruct (zlen (u1 ++ u2) mod 4 =? 0) eqn:E4; cbn [negb orb].
    + assert (Hu0 : zlen u2 = 0) by (zl; lia). apply zlen_0 in Hu0. subst u2. rewrite app_nil_r in *.
      change (zlen []) with 0 in *.
      destruct (L - zlen u1 / 4 * 3 =? 0) eqn:El.
      * do 2 eexists. split; [reflexivity|]. apply Hfr. intros b p [_ [_ HG]]. lia.
      * destruct (zdrop (zlen u1 / 4 * 3) D) as [|z q] eqn:EQ.
        { apply (f_equal zlen) in EQ. rewrite zlen_zdrop in EQ by lia. zl. lia. }
        rewrite zwrite_at by lia. cbn [bind]. do 2 eexists. split; [reflexivity|].
        assert (Eq : q = zdrop (zlen u1 / 4 * 3 + 1) D).
        { rewrite Z.add_comm, <- zdrop_zdrop by lia. rewrite EQ. reflexivity. }
        pose proof (frame_pre (b64_raw u1 ++ [0]) D L) as HF. revert HF. zl. rewrite Hraw.
        change (1 + 0) with 1. rewrite <- !app_assoc. cbn [app]. rewrite <- Eq. intros HF.
        destruct HF as [HF1 HF2]; [lia|]. split; [zl; lia|]. split; [assumption|].
        left. exists body, skip. split; [|split; [lia|congruence]].
        split; [assumption|]. split; [|lia]. split; [assumption|]. split; [lia|].
        apply (f_equal zlen) in Hsplit. revert Hsplit. zl. rewrite zlen_zrepeat by lia. intros. lia.
    + do 2 eexists. split; [reflexivity|]. apply Hfr. intros b p [Hs [[_ [Hp HG]] _]].
      apply (f_equal zlen) in Hs. revert Hs. zl. rewrite zlen_zrepeat by lia. intros. lia.
  - apply bytes_cons in HB as [Hc HB]. apply nonzero_cons in HZ as [Zc HZ].
    cbn [app]. rewrite (app_assoc u1 u2 (c :: t ++ 0 :: rest)).
    rewrite zread_at by reflexivity. cbn [bind].
    assert (Hs' : u1 ++ u2 ++ c :: t = u1 ++ (u2 ++ [c]) ++ t) by (rewrite <- !app_assoc; reflexivity).
    (* the common tail of the loop body *)
    assert (HGO : forall p skip' body', p = value_of c -> (u1 ++ u2) ++ [c] = body' ++ zrepeat 61 skip' ->
       Forall is_alpha body' -> 0 <= skip' <= 2 ->
       (skip' = skip /\ skip = 0 \/ skip' = skip + 1) -> exists r dst',
       (let n := Z.lor (Z.shiftl (acc u2) 6) p in
        let* cnt := int_r (zlen (u1 ++ u2) + 1) in
        let dst := b64_raw u1 ++ zdrop (zlen u1 / 4 * 3) D in
        let l := L - zlen u1 / 4 * 3 in let d := zlen u1 / 4 * 3 in
        let s := zlen (u1 ++ u2) in let o := zlen u1 / 4 * 3 - Z.max 0 (skip - zlen u2) in
        let src := (u1 ++ u2) ++ c :: t ++ 0 :: rest in
        if Z.rem cnt 4 =? 0 then
          if l <? 3 then Ret (0, dst)
          else
            let* dst := zwrite dst d (u8 (Z.shiftr n 16)) in
            let* dst := zwrite dst (d + 1) (Z.land (Z.shiftr n 8) 255) in
            let* dst := zwrite dst (d + 2) (Z.land n 255) in
            base64dec_loop fuel dst src (s + 1) (d + 3) (l - 3) (u64 (o + (3 - skip'))) 0 cnt skip'
        else base64dec_loop fuel dst src (s + 1) d l o n cnt skip') = Ret (r, dst') /\
       dec_post (u1 ++ u2 ++ c :: t) D L r dst').
    { intros p skip' body' -> Hsp' Hb' Hk' Hskk. cbv zeta.
      assert (int_r (zlen (u1 ++ u2) + 1) = Ret (zlen (u1 ++ u2) + 1)) as ->.
      { unfold int_r, int_ok. zl. zpos. replace (_ && _) with true by lia. reflexivity. }
      cbn [bind]. pose proof (zlen_nonneg (u1 ++ u2)) as Hnn. rewrite rem4 by lia.
      pose proof (acc_range u2) as Har. pose proof (value_range c) as Hvr.
      assert (Z.lor (Z.shiftl (acc u2) 6) (value_of c) = acc (u2 ++ [c])) as ->.
      { rewrite lor_shiftl_add by lia. rewrite acc_snoc. lia. }
      assert (Hsrc : (u1 ++ u2) ++ c :: t ++ 0 :: rest = u1 ++ (u2 ++ [c]) ++ t ++ 0 :: rest)
        by (rewrite <- !app_assoc; reflexivity).
      assert (Hlen1 : zlen (u1 ++ u2) + 1 = zlen (u1 ++ u2 ++ [c])) by zlia.
      rewrite Hlen1, Hsrc, Hs'. rewrite <- app_assoc in Hsp'.
      destruct (zlen (u1 ++ u2 ++ [c]) mod 4 =? 0) eqn:E4.
      - (* group complete *)
        assert (Hu3 : zlen u2 = 3) by (revert E4; zl; zpos; lia).
        destruct (L - zlen u1 / 4 * 3 <? 3) eqn:El.
        { do 2 eexists. split; [reflexivity|]. apply Hfr. intros b p [_ [_ HG]]. revert HG. zl. zpos. lia. }
        destruct (zdrop (zlen u1 / 4 * 3) D) as [|z1 [|z2 [|z3 q]]] eqn:EQ;
          try (apply (f_equal zlen) in EQ; rewrite zlen_zdrop in EQ by zlia; zl; zpos; lia).
        destruct u2 as [|c0 [|c1 [|c2 [|? ?]]]]; try (zl; zpos; lia). clear Hu3.
        rewrite zwrite_at by lia. cbn [bind]. rewrite zwrite_seq1 by lia. cbn [bind].
        rewrite zwrite_seq2 by lia. cbn [bind].
        assert (Hq : q = zdrop (zlen (u1 ++ [c0; c1; c2] ++ [c]) / 4 * 3) D).
        { replace (zlen (u1 ++ [c0; c1; c2] ++ [c]) / 4 * 3) with (3 + zlen u1 / 4 * 3) by (zl; lia).
          zpos. rewrite <- zdrop_zdrop by lia. rewrite EQ. reflexivity. }
        pose proof (value_range c0) as V0. pose proof (value_range c1) as V1. pose proof (value_range c2) as V2.
        assert (Hacc : acc ([c0; c1; c2] ++ [c]) =
           ((value_of c0 * 64 + value_of c1) * 64 + value_of c2) * 64 + value_of c) by reflexivity.
        assert (HW : b64_raw u1 ++ u8 (Z.shiftr (acc ([c0; c1; c2] ++ [c])) 16)
             :: Z.land (Z.shiftr (acc ([c0; c1; c2] ++ [c])) 8) 255 :: Z.land (acc ([c0; c1; c2] ++ [c])) 255 :: q =
            b64_raw (u1 ++ [c0; c1; c2] ++ [c]) ++ zdrop (zlen (u1 ++ [c0; c1; c2] ++ [c]) / 4 * 3) D).
        { rewrite <- Hq. rewrite b64_raw_app by assumption. cbn [app]. rewrite b64_raw_4, b64_raw_nil.
          rewrite app_nil_r, <- app_assoc. f_equal. unfold raw4. cbn [app].
          cbn [app] in Hacc. rewrite Hacc.
          rewrite !land_255, !Z.shiftr_div_pow2 by lia. unfold u8.
          f_equal; [lia|]. f_equal; [lia|]. f_equal; lia. }
        rewrite HW. clear HW.
        destruct (IH fuel (u1 ++ [c0; c1; c2] ++ [c]) [] body' skip') as [r [dst' [E HP]]];
          try assumption; try (cbn; lia); try (zl; zpos; lia);
          try (rewrite app_nil_r; assumption).
        exists r, dst'. split; [|revert HP; rewrite app_nil_l, <- !app_assoc; auto].
        rewrite <- E. rewrite app_nil_l, app_nil_r, <- !app_assoc. cbn [app].
        change (acc []) with 0. change (zlen []) with 0. rewrite Z.sub_0_r.
        replace (zlen (u1 ++ [c0; c1; c2; c]) / 4 * 3) with (zlen u1 / 4 * 3 + 3) by (zl; lia).
        rewrite u64_id by (zl; zpos; lia). f_equal; zl; lia.
      - (* group incomplete *)
        destruct (IH fuel u1 (u2 ++ [c]) body' skip') as [r [dst' [E HP]]];
          try assumption; try (zl; zpos; lia).
        exists r, dst'. split; [|assumption].
        rewrite <- E. f_equal. zl. zpos. lia. }
    destruct (c =? 61) eqn:E61.
    + assert (c = 61) by lia. subst c. destruct (2 <? skip + 1) eqn:E2.
      * do 2 eexists. split; [reflexivity|]. apply Hfr. intros b p HG. pose proof (good_eqs _ _ _ _ HG) as HE.
        destruct HG as [_ [[_ [Hp _]] _]]. rewrite app_assoc, Hsplit, !eqs_app, eqs_rep in HE by lia.
        cbn [eqs] in HE. change (61 =? 61) with true in HE. cbv iota in HE. pose proof (eqs_nonneg body). pose proof (eqs_nonneg t). lia.
      * apply HGO with (body' := body); [reflexivity| |assumption|lia|right; reflexivity].
        rewrite Hsplit, <- app_assoc. f_equal. apply zrepeat_snoc. lia.
    + replace (c =? 0) with false by lia. cbv iota. destruct (skip =? 0) eqn:Es; cbn [negb].
      * assert (skip = 0) by lia. subst skip. change (zrepeat 61 0) with (@nil Z) in Hsplit. rewrite app_nil_r in Hsplit.
        destruct (chrpos c =? -1) eqn:Ep.
        -- do 2 eexists. split; [reflexivity|]. apply Hfr. intros b p HG.
           destruct (good_In _ _ _ _ c HG) as [|Ha]; [rewrite !in_app_iff; cbn; auto|lia|].
           apply not_alpha in Ha. lia.
        -- apply HGO with (body' := body ++ [c]); [now apply chrpos_tab| | |lia|left; lia].
           ++ rewrite Hsplit. change (zrepeat 61 0) with (@nil Z). now rewrite app_nil_r.
           ++ apply Forall_app. split; [assumption|]. constructor; [now apply is_alpha_intro|constructor].
      * do 2 eexists. split; [reflexivity|]. apply Hfr. intros b p HG.
        rewrite app_assoc, Hsplit in HG. replace skip with (skip - 1 + 1) in HG by lia.
        rewrite <- zrepeat_snoc in HG by lia. rewrite <- !app_assoc in HG. cbn [app] in HG.
        rewrite app_assoc in HG. apply good_order in HG. lia.
Qed.

Lemma dec_ok D L s rest :
  0 <= L <= zlen D -> L < 2 ^ 64 -> bytes s -> nonzero s -> zlen s <= 2147483647 ->
  exists r dst', base64dec D (s ++ 0 :: rest) L = Ret (r, dst') /\ dec_post s D L r dst'.
Proof.
  intros HL HL64 HB HZ Hc. unfold base64dec. destruct (L =? 0) eqn:E.
  - exists 0, D. split; [reflexivity|]. split; [reflexivity|]. split; [reflexivity|]. right. split; [reflexivity|].
    intros b p [_ [_ HG]]. zpos. lia.
  - destruct (dec_loop_ok D L rest ltac:(lia) s (S (length (s ++ 0 :: rest))) [] [] [] 0) as [r [dst' [E' HP]]];
      try assumption; try reflexivity; try constructor; try lia; try (cbn; lia).
    { unfold zlen. rewrite app_length. lia. }
    exists r, dst'. split; [|exact HP]. rewrite <- E'. cbn [app]. rewrite b64_raw_nil. change (zlen []) with 0.
    change (0 / 4 * 3) with 0. rewrite zdrop_0. cbn [app]. f_equal. lia.
Qed.

(** ---------- roundtrip ---------- *)
Lemma b64_good x : bytes x ->
  exists body, b64 x = body ++ zrepeat 61 (pad_len (zlen x)) /\ wellformed body (pad_len (zlen x)) /\
    b64_raw (b64 x) = x ++ zrepeat 0 (pad_len (zlen x)).
Proof.
  assert (HP : forall b, byte b -> forall k, 0 <= k < 64 -> is_alpha (alphabet k)).
  { intros _ _ k Hk. exists k; auto. }
  induction x as [|a|a b|a b c l IH] using list_ind3; intros HB; repeat (apply bytes_cons in HB as [? HB]).
  - exists []. split; [reflexivity|]. split; [|reflexivity]. split; [constructor|]. split; [cbn; lia|reflexivity].
  - rewrite b64_1 by assumption. change (pad_len (zlen [a])) with 2. change (zrepeat 61 2) with [61; 61].
    exists [alphabet (a / 4); alphabet (a mod 4 * 16)]. unfold byte in *.
    split; [reflexivity|]. split.
    + split; [repeat constructor; eexists; (split; [|reflexivity]); lia|]. split; [lia|reflexivity].
    + rewrite b64_raw_4, b64_raw_nil, !value_alphabet by lia. change (value_of 61) with 0. unfold raw4.
      rewrite app_nil_r. change (zrepeat 0 2) with [0; 0]. cbn [app]. lz.
  - rewrite b64_2 by assumption. change (pad_len (zlen [a; b])) with 1. change (zrepeat 61 1) with [61].
    exists [alphabet (a / 4); alphabet (a mod 4 * 16 + b / 16); alphabet (b mod 16 * 4)]. unfold byte in *.
    split; [reflexivity|]. split.
    + split; [repeat constructor; eexists; (split; [|reflexivity]); lia|]. split; [lia|reflexivity].
    + rewrite b64_raw_4, b64_raw_nil, !value_alphabet by lia. change (value_of 61) with 0. unfold raw4.
      rewrite app_nil_r. change (zrepeat 0 1) with [0]. cbn [app]. lz.
  - rewrite b64_3 by assumption. destruct IH as [body [E [[W1 [W2 W3]] R]]]; [assumption|].
    zl. replace (1 + (1 + (1 + zlen l))) with (3 + zlen l) by lia. rewrite pad_len_3.
    exists (g3 a b c ++ body). unfold byte in *. split; [rewrite E at 1; now rewrite app_assoc|]. split.
    + split; [|split; [assumption|zl; change (zlen (g3 a b c)) with 4; lia]].
      apply Forall_app. split; [|assumption]. unfold g3.
      repeat constructor; eexists; (split; [|reflexivity]); lia.
    + unfold g3. cbn [app]. rewrite b64_raw_4, !value_alphabet by lia. rewrite R. unfold raw4. cbn [app].
      lz.
Qed.

Lemma b64_nonzero x : bytes x -> bytes (b64 x) /\ nonzero (b64 x).
Proof.
  intros HB. destruct (b64_good x HB) as [body [-> [[W1 [W2 _]] _]]]. split; apply Forall_app; split.
  - eapply Forall_impl; [|exact W1]. intros c [v [Hv <-]]. now apply alphabet_byte.
  - apply Forall_forall. intros c Hi. apply repeat_spec in Hi. subst c. unfold byte. lia.
  - eapply Forall_impl; [|exact W1]. intros c Hc. now apply alpha_ne.
  - apply Forall_forall. intros c Hi. apply repeat_spec in Hi. lia.
Qed.

Lemma roundtrip x D L rest :
  bytes x -> zlen (b64 x) <= 2147483647 -> zlen (b64 x) / 4 * 3 + 1 <= L <= zlen D -> L < 2 ^ 64 ->
  base64dec D (b64 x ++ 0 :: rest) L =
  Ret (zlen x, x ++ zrepeat 0 (pad_len (zlen x)) ++ 0 :: zdrop (zlen (b64 x) / 4 * 3 + 1) D).
Proof.
  intros HB Hc HL H64. destruct (b64_nonzero x HB) as [N1 N2].
  destruct (b64_good x HB) as [body [E [W R]]]. zpos.
  destruct (dec_ok D L (b64 x) rest ltac:(lia) H64 N1 N2 Hc) as [r [dst' [E1 [_ [_ [[b [p [HG [-> ->]]]]|[-> HN]]]]]]].
  - rewrite E1. rewrite R, <- app_assoc. tup.
    assert (HG2 : good (b64 x) L body (pad_len (zlen x))) by (split; [assumption|split; [assumption|lia]]).
    rewrite <- (good_eqs _ _ _ _ HG), (good_eqs _ _ _ _ HG2). rewrite zlen_b64 by assumption. unfold pad_len. lia.
  - exfalso. apply (HN body (pad_len (zlen x))). split; [assumption|split; [assumption|lia]].
Qed.

Lemma groups_prefix n : (0 < n)%nat -> forall k a b, (length a <= k)%nat ->
  firstn (length (groups n a)) (groups n (a ++ b)) = groups n a.
Proof.
  intros Hn. induction k as [|k IH]; intros a b Hk.
  - destruct a; [reflexivity|cbn in Hk; lia].
  - destruct (Nat.le_gt_cases n (length a)) as [Hle|Hgt].
    + rewrite <- (firstn_skipn n a). rewrite <- app_assoc.
      rewrite !groups_app by (rewrite ?firstn_length; lia). cbn [length firstn]. f_equal.
      apply IH. rewrite skipn_length. lia.
    + assert (groups n a = []) as ->; [|reflexivity]. unfold groups.
      destruct (length a) as [|m] eqn:E; [reflexivity|]. cbn [cut]. rewrite E.
      replace (n <=? S m)%nat with false; [reflexivity|]. symmetry. apply Nat.leb_gt. lia.
Qed.
Lemma groups_len n : (0 < n)%nat -> forall k a, (length a <= k)%nat ->
  zlen (groups n a) = zlen a / Z.of_nat n.
Proof.
  intros Hn. induction k as [|k IH]; intros a Hk.
  - destruct a; [reflexivity|cbn in Hk; lia].
  - destruct (Nat.le_gt_cases n (length a)) as [Hle|Hgt].
    + rewrite <- (firstn_skipn n a). rewrite groups_app by (rewrite ?firstn_length; lia). zl.
      rewrite IH by (rewrite skipn_length; lia). unfold zlen. rewrite firstn_length, skipn_length.
      rewrite Nat.min_l by lia. rewrite Nat2Z.inj_sub by lia.
      replace (Z.of_nat n + (Z.of_nat (length a) - Z.of_nat n))
        with (1 * Z.of_nat n + (Z.of_nat (length a) - Z.of_nat n)) by lia.
      rewrite Z.div_add_l by lia. reflexivity.
    + assert (groups n a = []) as ->.
      { unfold groups. destruct (length a) as [|m] eqn:E; [reflexivity|]. cbn [cut]. rewrite E.
        replace (n <=? S m)%nat with false; [reflexivity|]. symmetry. apply Nat.leb_gt. lia. }
      change (zlen []) with 0. symmetry. apply Z.div_small. unfold zlen. lia.
Qed.
Lemma bits6_len (s : list Z) : zlen (concat (map (fun c => to_bits 6 (value_of c)) s)) = 6 * zlen s.
Proof. induction s as [|c s IH]; [reflexivity|]. cbn [map concat]. zl. rewrite IH. change (zlen (to_bits 6 _)) with 6. lia. Qed.
Lemma raw_decoded s pad : is_b64 s pad -> b64_decoded s pad = ztake (zlen s / 4 * 3 - pad) (b64_raw s).
Proof.
  intros [body [-> [_ [Hp Hm]]]]. unfold b64_decoded.
  replace (zlen (body ++ zrepeat 61 pad) - pad) with (zlen body) by (zl; rewrite zlen_zrepeat; lia).
  rewrite ztake_app_exact. unfold b64_raw. rewrite map_app, concat_app. symmetry.
  set (a := concat _). etransitivity; [|apply (groups_prefix 8) with (k := length a); lia].
  unfold ztake. f_equal.
  assert (E : zlen (groups 8 a) = zlen a / 8) by (apply (groups_len 8) with (k := length a); lia).
  unfold a in E. rewrite bits6_len in E. fold a in E. unfold zlen in E at 1. zl. rewrite zlen_zrepeat by lia. zpos. lia.
Qed.

Lemma dec_full dst dst_len s rest :
  0 <= dst_len <= zlen dst -> dst_len < 2 ^ 64 -> bytes s -> Forall (fun c => c <> 0) s -> zlen s <= 2147483647 ->
  exists r dst', base64dec dst (s ++ 0 :: rest) dst_len = Ret (r, dst') /\
    zlen dst' = zlen dst /\ zdrop dst_len dst' = zdrop dst_len dst /\
    (forall pad, is_b64 s pad -> zlen s / 4 * 3 + 1 <= dst_len ->
       r = zlen s / 4 * 3 - pad /\ ztake r dst' = b64_decoded s pad /\
       dst' = b64_raw s ++ 0 :: zdrop (zlen s / 4 * 3 + 1) dst) /\
    ((forall pad, ~ is_b64 s pad) \/ dst_len < zlen s / 4 * 3 + 1 -> r = 0).
Proof.
  intros HL H64 HB HZ Hc. destruct (dec_ok dst dst_len s rest HL H64 HB HZ Hc) as [r [dst' [E [H1 [H2 H3]]]]].
  exists r, dst'. split; [assumption|]. split; [assumption|]. split; [assumption|].
  destruct H3 as [[b [p [HG [Hr Hd]]]]|[Hr HN]].
  - split.
    + intros pad [body [Hs Hw]] Hfit.
      assert (HG2 : good s dst_len body pad) by (split; [assumption|split; assumption]).
      assert (p = pad) by (rewrite <- (good_eqs _ _ _ _ HG), (good_eqs _ _ _ _ HG2); reflexivity). subst p.
      split; [assumption|]. split; [|assumption]. rewrite raw_decoded by (exists body; auto). subst r dst'.
      assert (Hm : zlen s mod 4 = 0) by (destruct Hw as [_ [Hp Hm]]; rewrite Hs; zl; rewrite zlen_zrepeat by lia; exact Hm).
      rewrite ztake_app1; [reflexivity|]. rewrite zlen_b64_raw by assumption. destruct Hw as [_ [Hp _]]. lia.
    + intros [HN|HN]; exfalso.
      * destruct HG as [Hs [Hw _]]. apply (HN p). exists b. auto.
      * destruct HG as [_ [_ HG]]. lia.
  - split.
    + intros pad [body [Hs Hw]] Hfit. exfalso. apply (HN body pad). split; [assumption|split; assumption].
    + auto.
Qed.

Lemma roundtrip_take x D L rest :
  bytes x -> (zlen x + 2) / 3 * 4 <= 2147483647 -> zlen (b64 x) / 4 * 3 + 1 <= L <= zlen D -> L < 2 ^ 64 ->
  exists dst', base64dec D (b64 x ++ 0 :: rest) L = Ret (zlen x, dst') /\
    ztake (zlen x + 1) dst' = x ++ [0] /\ zlen dst' = zlen D /\ zdrop L dst' = zdrop L D.
Proof.
  intros HB Hc HL H64. eexists. rewrite <- (zlen_b64 x HB) in Hc. split; [apply roundtrip; assumption|].
  rewrite zlen_b64 in * by assumption.
  assert (Hz : exists q, zrepeat 0 (pad_len (zlen x)) ++ 0 :: zdrop ((zlen x + 2) / 3 * 4 / 4 * 3 + 1) D = 0 :: q).
  { unfold zrepeat. destruct (Z.to_nat (pad_len (zlen x))) as [|n]; cbn; eauto. }
  zpos.
  assert (Hpl : zlen (x ++ zrepeat 0 (pad_len (zlen x)) ++ [0]) = (zlen x + 2) / 3 * 4 / 4 * 3 + 1).
  { zl. unfold pad_len. rewrite zlen_zrepeat by lia. lia. }
  split; [|].
  - destruct Hz as [q ->]. change (0 :: q) with ([0] ++ q). rewrite app_assoc.
    replace (zlen x + 1) with (zlen (x ++ [0])) by zlia. apply ztake_app_exact.
  - replace (x ++ zrepeat 0 (pad_len (zlen x)) ++ 0 :: zdrop ((zlen x + 2) / 3 * 4 / 4 * 3 + 1) D)
      with ((x ++ zrepeat 0 (pad_len (zlen x)) ++ [0]) ++ zdrop ((zlen x + 2) / 3 * 4 / 4 * 3 + 1) D)
      by (rewrite <- !app_assoc; reflexivity).
    rewrite <- Hpl. apply frame_pre. rewrite Hpl. lia.
Qed.
