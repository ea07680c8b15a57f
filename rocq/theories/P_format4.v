(** More proofs about ulz_vsnprintf: directives that fail or that print something else than in C. *)
From Verif Require Import Base Bits Cstr S_num L_num M_str M_num P_num M_format S_format P_format P_format2 P_format3.

Lemma zread2 p c q k : 0 <= k -> zread (p ++ 37 :: c :: q) (zlen p + (1 + k)) = zread (c :: q) k.
Proof. intros K. rewrite (zread_off p _ (1 + k)) by lia. change (37 :: c :: q) with ([37] ++ c :: q). apply (zread_off [37] _ k); [exact K|reflexivity]. Qed.
Lemma no_dir_fails q args : no_dir q -> forall fuel p cb t, fmt_loop collect (S fuel) (p ++ 37 :: q) true (zlen p) args 0 cb t = Ret (true, t).
Proof.
  intros H fuel p cb t. assert (N : forall c, ~ du c -> (c =? 100) = false /\ (c =? 117) = false) by (unfold du; intros c0 D; lia).
  cbn [fmt_loop negb]. inversion H as [c q0 I|c q0 D|c q0 L D|c q0 D|c q0 D]; subst.
  - replace (zlen p + 1) with (zlen p + (1 + 0)) by lia. rewrite zread2 by lia. change (zread (c :: q0) 0) with (Ret c). cbn [bind]. cbn [In] in I. repeat match goal with |- context [c =? ?k] => replace (c =? k) with false by lia end. reflexivity.
  - replace (zlen p + 1) with (zlen p + (1 + 0)) by lia. rewrite zread2 by lia. change (zread (46 :: c :: q0) 0) with (Ret 46). cbn [bind Z.eqb Pos.eqb digits].
    replace (zlen p + (1 + 0) + 1 + 0) with (zlen p + (1 + 1)) by lia. rewrite zread2 by lia. change (zread (46 :: c :: q0) 1) with (Ret c). cbn [bind]. rewrite isNumber_digit, D. reflexivity.
  - destruct (N c D) as [N1 N2]. replace (zlen p + 1) with (zlen p + (1 + 0)) by lia. rewrite zread2 by lia. change (zread (108 :: c :: q0) 0) with (Ret 108). cbn [bind Z.eqb Pos.eqb orb].
    replace (zlen p + (1 + 0) + 1) with (zlen p + (1 + 1)) by lia. rewrite zread2 by lia. change (zread (108 :: c :: q0) 1) with (Ret c). cbn [bind]. replace (c =? 108) with false by lia.
    replace (zlen p + (1 + 0) + 1) with (zlen p + (1 + 1)) by lia. rewrite zread2 by lia. change (zread (108 :: c :: q0) 1) with (Ret c). cbn [bind]. rewrite N1, N2. reflexivity.
  - destruct (N c D) as [N1 N2]. replace (zlen p + 1) with (zlen p + (1 + 0)) by lia. rewrite zread2 by lia. change (zread (108 :: 108 :: c :: q0) 0) with (Ret 108). cbn [bind Z.eqb Pos.eqb orb].
    replace (zlen p + (1 + 0) + 1) with (zlen p + (1 + 1)) by lia. rewrite zread2 by lia. change (zread (108 :: 108 :: c :: q0) 1) with (Ret 108). cbn [bind Z.eqb Pos.eqb].
    replace (zlen p + (1 + 1) + 1) with (zlen p + (1 + 2)) by lia. rewrite zread2 by lia. change (zread (108 :: 108 :: c :: q0) 2) with (Ret c). cbn [bind]. rewrite N1, N2. reflexivity.
  - destruct (N c D) as [N1 N2]. replace (zlen p + 1) with (zlen p + (1 + 0)) by lia. rewrite zread2 by lia. change (zread (122 :: c :: q0) 0) with (Ret 122). cbn [bind Z.eqb Pos.eqb orb].
    replace (zlen p + (1 + 0) + 1) with (zlen p + (1 + 1)) by lia. rewrite zread2 by lia. change (zread (122 :: c :: q0) 1) with (Ret c). cbn [bind]. rewrite N1, N2. reflexivity.
Qed.
Lemma null_fails q args fuel p cb t : fmt_loop collect (S fuel) (p ++ 37 :: 115 :: q) true (zlen p) (VStr None :: args) 0 cb t = Ret (true, t).
Proof. cbn [fmt_loop negb]. replace (zlen p + 1) with (zlen p + (1 + 0)) by lia. rewrite zread2 by lia. reflexivity. Qed.
(** %d, %u, %x, %X of any int; x: the % or the digit of the precision *)
Definition int_num (cv : conv) (v : Z) : Z := match cv with Cu => u32 v | _ => u64 (s32 v) end.
Lemma zread3 (p : list Z) x c q k : 0 <= k -> zread (p ++ x :: c :: q) (zlen p + (1 + k)) = zread (c :: q) k.
Proof. intros K. rewrite (zread_off p _ (1 + k)) by lia. change (x :: c :: q) with ([x] ++ c :: q). apply (zread_off [x] _ k); [exact K|reflexivity]. Qed.
Lemma dir_int cv w v fuel p x q args cbuf t :
  fmt_loop collect (S fuel) (p ++ x :: conv_fmt cv :: q) true (zlen p) (VInt v :: args) w cbuf t =
  (let* r := nconv collect (int_num cv v) (conv_base cv) w (item_flags cv) cbuf t in
   match r with None => Ret (true, t) | Some (cbuf, k) => fmt_loop collect fuel (p ++ x :: conv_fmt cv :: q) false (zlen p + 2) args 0 cbuf k end).
Proof.
  cbn [fmt_loop negb]. replace (zlen p + 1) with (zlen p + (1 + 0)) by lia. rewrite zread3 by lia.
  destruct cv; cbn [conv_fmt]; match goal with |- context [zread (?c :: q) 0] => change (zread (c :: q) 0) with (Ret c) end; cbn [bind Z.eqb Pos.eqb orb arg_int conv_base item_flags int_num];
    replace (zlen p + (1 + 0) + 1) with (zlen p + 2) by lia; reflexivity.
Qed.
Lemma at_percent fuel p q args w cb t : fmt_loop collect (S fuel) (p ++ 37 :: q) false (zlen p) args w cb t = fmt_loop collect fuel (p ++ 37 :: q) true (zlen p) args w cb t.
Proof. cbn [fmt_loop negb]. rewrite zread_at by reflexivity. reflexivity. Qed.
Lemma at_end fuel p r args w cb t : fmt_loop collect (S fuel) (p ++ 0 :: r) false (zlen p) args w cb t = Ret (false, t).
Proof. cbn [fmt_loop negb]. rewrite zread_at by reflexivity. reflexivity. Qed.
Lemma at_dot fuel p w c q args w0 cb t : 0 <= w <= 9 -> digit c = false ->
  fmt_loop collect (S fuel) (p ++ 37 :: 46 :: (48 + w) :: c :: q) true (zlen p) args w0 cb t = fmt_loop collect fuel (p ++ 37 :: 46 :: (48 + w) :: c :: q) true (zlen p + 2) args w cb t.
Proof.
  intros W D. cbn [fmt_loop negb]. replace (zlen p + 1) with (zlen p + (1 + 0)) by lia. rewrite zread2 by lia. change (zread (46 :: (48 + w) :: c :: q) 0) with (Ret 46). cbn [bind Z.eqb Pos.eqb].
  assert (Ed : digits (S (length (p ++ 37 :: 46 :: (48 + w) :: c :: q))) (p ++ 37 :: 46 :: (48 + w) :: c :: q) (zlen p + (1 + 0) + 1) 0 = Ret 1).
  { destruct (length (p ++ 37 :: 46 :: (48 + w) :: c :: q)) eqn:Ln; [rewrite !app_length in Ln; cbn in Ln; lia|]. cbn [digits]. replace (zlen p + (1 + 0) + 1 + 0) with (zlen p + (1 + 1)) by lia. rewrite zread2 by lia. change (zread (46 :: (48 + w) :: c :: q) 1) with (Ret (48 + w)). cbn [bind].
    rewrite isNumber_digit. replace (digit (48 + w)) with true by (unfold digit; lia). cbn [Z.eqb]. replace (zlen p + (1 + 0) + 1 + (0 + 1)) with (zlen p + (1 + 2)) by lia. rewrite zread2 by lia. change (zread (46 :: (48 + w) :: c :: q) 2) with (Ret c). cbn [bind]. rewrite isNumber_digit, D. reflexivity. }
  rewrite Ed. cbn [bind Z.eqb]. change (Z.to_nat 1) with 1%nat. cbn [width_loop]. replace (zlen p + (1 + 0) + 1 + 0) with (zlen p + (1 + 1)) by lia. rewrite zread2 by lia. change (zread (46 :: (48 + w) :: c :: q) 1) with (Ret (48 + w)). cbn [bind Z.eqb negb].
  replace (0 + (48 + w - 48) * 1) with w by lia. rewrite u64_id by lia. f_equal. lia.
Qed.
Lemma at_str fuel p x q s rest args w cb t : nz s -> fmt_loop collect (S fuel) (p ++ x :: 115 :: q) true (zlen p) (VStr (Some (s ++ 0 :: rest)) :: args) w cb t =
  fmt_loop collect fuel (p ++ x :: 115 :: q) false (zlen p + 2) args w cb (t ++ s).
Proof.
  intros N. cbn [fmt_loop negb]. replace (zlen p + 1) with (zlen p + (1 + 0)) by lia. rewrite zread3 by lia. change (zread (115 :: q) 0) with (Ret 115). cbn [bind Z.eqb Pos.eqb arg_str]. rewrite gstr0 by exact N. cbn [bind]. f_equal. lia.
Qed.
Lemma fuel_ge (f : list Z) n : (n <= 2 * length f + 2)%nat -> exists m, (2 * length f + 2)%nat = (n + m)%nat.
Proof. intros H. exists (2 * length f + 2 - n)%nat. lia. Qed.
Lemma conv_no_digit cv : digit (conv_fmt cv) = false.
Proof. now destruct cv. Qed.
(** one directive *)
Lemma int_text cv v r cbuf : zlen cbuf = 32 -> exists ds, is_repr (conv_base cv) (mag_of (int_num cv v) (item_flags cv)) ds /\
  text_run (37 :: conv_fmt cv :: 0 :: r) [VInt v] cbuf = Ret (false, sign_str (neg_of (int_num cv v) (item_flags cv)) ++ map (digit_char (conv_lower cv)) ds).
Proof.
  intros C. unfold text_run. destruct (fuel_ge (37 :: conv_fmt cv :: 0 :: r) 3) as (m & ->); [cbn [length]; lia|]. cbn [Nat.add].
  rewrite (at_percent _ [] (conv_fmt cv :: 0 :: r)). rewrite (dir_int cv 0 v _ [] 37 (0 :: r)).
  assert (B : conv_base cv = 10 \/ conv_base cv = 16) by (destruct cv; cbn; auto). assert (R : 0 <= int_num cv v < 2 ^ 64). { pose proof (u32_range v). destruct cv; cbn [int_num]; try apply u64_range; lia. }
  destruct (nconv_ok (int_num cv v) (conv_base cv) 0 (item_flags cv) cbuf [] R B ltac:(lia) ltac:(destruct cv; cbn; lia) C) as (ds & cb & Cb & D & E & W0 & _). rewrite E. cbn [bind].
  exists ds. split; [auto|]. rewrite (at_end _ ([37] ++ [conv_fmt cv]) r). replace (negb (Z.land (item_flags cv) 4 =? 0)) with (conv_lower cv) by now destruct cv. reflexivity.
Qed.
(** one directive with a precision *)
Lemma int_text_prec cv w v r cbuf : 1 <= w <= 9 -> zlen cbuf = 32 -> exists ds, digits_ok (conv_base cv) ds /\ zlen ds = w /\
  pos_value (conv_base cv) ds = mag_of (int_num cv v) (item_flags cv) mod conv_base cv ^ w /\
  text_run (37 :: 46 :: (48 + w) :: conv_fmt cv :: 0 :: r) [VInt v] cbuf = Ret (false, sign_str (neg_of (int_num cv v) (item_flags cv)) ++ map (digit_char (conv_lower cv)) ds).
Proof.
  intros W C. unfold text_run. destruct (fuel_ge (37 :: 46 :: (48 + w) :: conv_fmt cv :: 0 :: r) 4) as (m & ->); [cbn [length]; lia|]. cbn [Nat.add].
  rewrite (at_percent _ [] (46 :: (48 + w) :: conv_fmt cv :: 0 :: r)). rewrite (at_dot _ [] w (conv_fmt cv) (0 :: r)) by (lia || apply conv_no_digit). rewrite (dir_int cv w v _ [37; 46] (48 + w) (0 :: r)).
  assert (B : conv_base cv = 10 \/ conv_base cv = 16) by (destruct cv; cbn; auto). assert (R : 0 <= int_num cv v < 2 ^ 64). { pose proof (u32_range v). destruct cv; cbn [int_num]; try apply u64_range; lia. }
  destruct (nconv_ok (int_num cv v) (conv_base cv) w (item_flags cv) cbuf [] R B ltac:(lia) ltac:(destruct cv; cbn; lia) C) as (ds & cb & Cb & D & E & _ & W1). rewrite E. cbn [bind]. destruct (W1 ltac:(lia)) as [L V].
  exists ds. split; [exact D|]. split; [exact L|]. split; [exact V|]. rewrite (at_end _ [37; 46; 48 + w; conv_fmt cv] r). replace (negb (Z.land (item_flags cv) 4 =? 0)) with (conv_lower cv) by now destruct cv. reflexivity.
Qed.
(** a precision before s, then a number *)
Lemma str_prec_text w s rest v r cbuf : 1 <= w <= 9 -> nz s -> zlen cbuf = 32 -> exists ds, digits_ok 10 ds /\ zlen ds = w /\
  pos_value 10 ds = mag_of (int_num Cd v) 2 mod 10 ^ w /\
  text_run (37 :: 46 :: (48 + w) :: 115 :: 37 :: 100 :: 0 :: r) [VStr (Some (s ++ 0 :: rest)); VInt v] cbuf = Ret (false, s ++ sign_str (neg_of (int_num Cd v) 2) ++ map (digit_char false) ds).
Proof.
  intros W N C. unfold text_run. destruct (fuel_ge (37 :: 46 :: (48 + w) :: 115 :: 37 :: 100 :: 0 :: r) 6) as (m & ->); [cbn [length]; lia|]. cbn [Nat.add].
  rewrite (at_percent _ [] (46 :: (48 + w) :: 115 :: 37 :: 100 :: 0 :: r)). rewrite (at_dot _ [] w 115 (37 :: 100 :: 0 :: r)) by (lia || reflexivity). rewrite (at_str _ [37; 46] (48 + w) (37 :: 100 :: 0 :: r)) by exact N.
  rewrite (at_percent _ [37; 46; 48 + w; 115] (100 :: 0 :: r)). rewrite (dir_int Cd w v _ [37; 46; 48 + w; 115] 37 (0 :: r)).
  destruct (nconv_ok (int_num Cd v) 10 w 2 cbuf s ltac:(apply u64_range) ltac:(auto) ltac:(lia) ltac:(lia) C) as (ds & cb & Cb & D & E & _ & W1). cbn [app conv_base item_flags]. rewrite E. cbn [bind]. destruct (W1 ltac:(lia)) as [L V].
  exists ds. split; [exact D|]. split; [exact L|]. split; [exact V|]. exact (at_end _ [37; 46; 48 + w; 115; 37; 100] r _ _ _ _).
Qed.
