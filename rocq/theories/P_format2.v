(** More proofs about ulz_vsnprintf: no undefined behaviour, and the text. *)
From Verif Require Import Base Bits Cstr S_num L_num M_str M_num P_num M_format S_format P_format.

(** ** no Fuel *)
Lemma bind_nf {A B} (x : out A) (f : A -> out B) : x <> Fuel -> (forall a, x = Ret a -> f a <> Fuel) -> bind x f <> Fuel.
Proof. destruct x; cbn; auto. easy. Qed.
Lemma zread_nf {A} (l : list A) i : zread l i <> Fuel.
Proof. unfold zread. destruct (0 <=? i); [|easy]. destruct (nth_error _ _); easy. Qed.
Lemma zwrite_nf {A} (l : list A) i x : zwrite l i x <> Fuel.
Proof. unfold zwrite. destruct (_ && _); easy. Qed.
Lemma zread_in {A} (l : list A) i x : zread l i = Ret x -> 0 <= i < zlen l.
Proof. unfold zread. destruct (Z.leb_spec 0 i); [|discriminate]. destruct (nth_error _ _) eqn:E; [|discriminate]. intros _. split; [assumption|]. unfold zlen. assert (Z.to_nat i < length l)%nat by (apply nth_error_Some; congruence). lia. Qed.
Lemma strmove_nf fuel : forall ins pos (t : list Z), zlen ins - pos < Z.of_nat fuel -> (0 < fuel)%nat -> strmove collect fuel ins pos t <> Fuel.
Proof.
  induction fuel as [|fuel IH]; intros ins pos t L F; [lia|]. cbn [strmove]. apply bind_nf; [apply zread_nf|]. intros c E. apply zread_in in E. destruct (c =? 0); [easy|]. cbn [collect bind]. apply IH; lia.
Qed.
Lemma strmove0_nf ins pos (t : list Z) : 0 <= pos -> strmove0 collect ins pos t <> Fuel.
Proof. intros P. unfold strmove0. apply strmove_nf; unfold zlen; lia. Qed.
Lemma digits_nf fuel : forall fmt a i, zlen fmt - (a + i) < Z.of_nat fuel -> (0 < fuel)%nat -> digits fuel fmt a i <> Fuel.
Proof.
  induction fuel as [|fuel IH]; intros fmt a i L F; [lia|]. cbn [digits]. apply bind_nf; [apply zread_nf|]. intros c E. apply zread_in in E. destruct (_ =? 1); [apply IH; lia|easy].
Qed.
Lemma digits_ge fuel : forall fmt a i r, digits fuel fmt a i = Ret r -> i <= r.
Proof.
  induction fuel as [|fuel IH]; intros fmt a i r; cbn [digits]; [easy|]. destruct (zread fmt (a + i)); cbn [bind]; try easy. destruct (_ =? 1); [intros H; apply IH in H; lia|]. intros H. injection H. lia.
Qed.
Lemma width_nf n : forall fmt a i j w, width_loop n fmt a i j w <> Fuel.
Proof. induction n as [|n IH]; intros; cbn [width_loop]; [easy|]. apply bind_nf; [apply zread_nf|]. intros. apply IH. Qed.
Lemma fill_nf n : forall buf r i, nts_fill n buf r i <> Fuel.
Proof. induction n as [|n IH]; intros; cbn [nts_fill]; [easy|]. apply bind_nf; [apply zwrite_nf|]. intros. apply IH. Qed.
Lemma strip_nf n : forall buf r i s, nts_strip n buf r i s <> Fuel.
Proof. induction n as [|n IH]; intros; cbn [nts_strip]; [easy|]. apply bind_nf; [apply zread_nf|]. intros. destruct (_ =? 48); [|easy]. apply bind_nf; [unfold int_r; destruct (int_ok _); easy|]. intros. apply IH. Qed.
Lemma ndigits_nf b fuel : 2 <= b -> forall buf n r len fl, 0 <= n < 2 ^ Z.of_nat fuel -> nts_digits (S fuel) buf n b r len fl <> Fuel.
Proof.
  intros Hb. induction fuel as [|fuel IH]; intros buf n r len fl N.
  - assert (n = 0) by (cbn in N; lia). subst n. cbn [nts_digits Z.eqb negb andb]. easy.
  - remember (S fuel) as k1 eqn:Ek. cbn [nts_digits]. destruct (_ && _); [|easy]. destruct (b =? 0); [easy|]. apply bind_nf; [destruct (negb _); apply zread_nf|]. intros c _. apply bind_nf; [apply zwrite_nf|]. intros buf' _. apply IH.
    replace (n - n mod b) with (n / b * b) by (pose proof (Z.div_mod n b ltac:(lia)); lia). rewrite Z.div_mul by lia. subst k1. apply pow_half; assumption.
Qed.
Lemma nts_nf n b buf w fl : 0 <= n < 2 ^ 64 -> 2 <= b -> numberToString n b buf w fl <> Fuel.
Proof.
  intros N B. unfold numberToString. destruct (_ || _); [discriminate|]. cbv zeta. set (hs := negb _ && _). set (n' := if hs then _ else n).
  assert (N' : 0 <= n' < 2 ^ 64) by (unfold n'; destruct hs; [apply u64_range|assumption]).
  pose proof (ndigits_nf b 64 B) as Dn. destruct (lentest_ok b B 64 n' 0 N') as (k & E & _). apply bind_nf.
  - destruct (w =? 0); [|discriminate]. rewrite E. cbn [bind]. discriminate.
  - clear E. intros len _. apply bind_nf; [apply fill_nf|]. intros b1 _. apply bind_nf; [apply zwrite_nf|]. intros b2 _. destruct (n' =? 0); [discriminate|]. apply bind_nf; [apply Dn; exact N'|]. intros b3 _.
    apply bind_nf; [match goal with |- (if ?x then _ else _) <> _ => destruct x end; [apply bind_nf; [apply strip_nf|intros ? _; discriminate]|destruct hs; discriminate]|]. intros r _. apply bind_nf; [destruct hs; [apply zwrite_nf|discriminate]|]. intros ? _. discriminate.
Qed.
Lemma bind_inv {A B} (x : out A) (f : A -> out B) y : bind x f = Ret y -> exists a, x = Ret a /\ f a = Ret y.
Proof. destruct x; cbn; try discriminate. eauto. Qed.
Lemma strip_ge n : forall buf r i s s', nts_strip n buf r i s = Ret s' -> s <= s'.
Proof.
  induction n as [|n IH]; intros buf r i s s'; cbn [nts_strip]; intros H; [injection H; lia|]. apply bind_inv in H as (c & _ & H). destruct (c =? 48); [|injection H; lia].
  apply bind_inv in H as (x & Hx & H). apply IH in H. unfold int_r in Hx. destruct (int_ok _); [|discriminate]. injection Hx. lia.
Qed.
Lemma lentest_ge fuel : forall n b l r, nts_lentest fuel n b l = Ret r -> l <= r.
Proof. induction fuel as [|fuel IH]; intros n b l r; cbn [nts_lentest]; [discriminate|]. destruct (n =? 0); [intros H; injection H; lia|]. destruct (b =? 0); [discriminate|]. intros H. apply IH in H. lia. Qed.
Lemma nts_off n b buf w fl off buf' : 0 <= w -> (fl = 0 -> w = 0) -> numberToString n b buf w fl = Ret (Some (off, buf')) -> 0 <= off.
Proof.
  intros W F. unfold numberToString. destruct (_ || _); [discriminate|]. cbv zeta. set (hs := negb _ && _). set (n' := if hs then _ else n). intros H. apply bind_inv in H as (len & Hl & H).
  assert (L : 0 <= len /\ (w = 0 -> 1 <= len)).
  { destruct (Z.eqb_spec w 0); [|injection Hl; lia]. apply bind_inv in Hl as (l & Hl & E). apply lentest_ge in Hl. injection E as <-. destruct (Z.eqb_spec l 0); lia. }
  clear Hl. apply bind_inv in H as (b1 & _ & H). apply bind_inv in H as (b2 & _ & H).
  assert (Hs : fl = 0 -> hs = false) by (intros E; unfold hs; rewrite E; reflexivity).
  destruct (n' =? 0).
  - destruct (Z.eqb_spec fl 0) as [E|E]; cbn in H.
    + rewrite (Hs E) in H. injection H. lia.
    + injection H. destruct hs; lia.
  - apply bind_inv in H as (b3 & _ & H). apply bind_inv in H as (r & Hr & H). apply bind_inv in H as (b4 & _ & H). injection H as -> _. destruct (Z.eqb_spec fl 0) as [E|E]; cbn in Hr.
    + rewrite (Hs E) in Hr. apply bind_inv in Hr as (sh & Hs' & Hr). apply strip_ge in Hs'. injection Hr. lia.
    + destruct hs; injection Hr; lia.
Qed.
Lemma conv_nf inn base w nf cbuf t : 0 <= inn < 2 ^ 64 -> 2 <= base -> 0 <= w -> 0 <= nf -> nconv collect inn base w nf cbuf t <> Fuel.
Proof.
  intros N B W Nf. unfold nconv. cbv zeta. apply bind_nf; [now apply nts_nf|]. intros [[off b]|] E; [|discriminate]. apply bind_nf; [apply strmove0_nf; eapply nts_off; [exact W| |exact E]|intros ? _; discriminate].
  destruct (Z.eqb_spec w 0); [auto|]. cbn [negb]. intros X. apply Z.lor_eq_0_iff in X as [_ X]. discriminate.
Qed.
Lemma width_pos n : forall fmt a i j w r, 0 <= w -> width_loop n fmt a i j w = Ret r -> 0 <= r.
Proof.
  induction n as [|n IH]; intros fmt a i j w r W; cbn [width_loop]; intros H; [injection H; lia|]. apply bind_inv in H as (c & _ & H). apply IH in H; [assumption|]. apply u64_range.
Qed.
Lemma loop_nf fuel : forall fmt (md : bool) a args w cbuf t, 0 <= w -> 0 <= a -> (0 < fuel)%nat -> 2 * (zlen fmt - a) + (if md then 0 else 1) < Z.of_nat fuel -> fmt_loop collect fuel fmt md a args w cbuf t <> Fuel.
Proof.
  induction fuel as [|fuel IH]; intros fmt md a args w cbuf t W P F0 F; [lia|]. cbn [fmt_loop].
  assert (Nc : forall inn base nf p args, 0 <= inn < 2 ^ 64 -> 2 <= base -> 0 <= nf -> a + 1 <= p -> p < zlen fmt ->
    (let* r := nconv collect inn base w nf cbuf t in match r with None => Ret (true, t) | Some (cbuf, k) => fmt_loop collect fuel fmt false (p + 1) args 0 cbuf k end) <> Fuel).
  { intros inn base nf p ar Hi Hb Hf Hp Hl. apply bind_nf; [now apply conv_nf|]. intros [[cb k]|] _; [|discriminate]. apply IH; destruct md; lia. }
  assert (Au : forall args, arg_int args <> Fuel /\ arg_long args <> Fuel /\ arg_str args <> Fuel).
  { intros [|[x|x|x] l]; repeat split; discriminate. }
  destruct md; cbn [negb]; apply bind_nf; try apply zread_nf; intros c E; apply zread_in in E.
  - destruct (c =? 37); [cbn [collect bind]; apply IH; lia|]. destruct (c =? 46).
    { apply bind_nf; [apply digits_nf; unfold zlen; lia|]. intros i Ei. apply digits_ge in Ei. destruct (Z.eqb_spec i 0); [discriminate|]. apply bind_nf; [apply width_nf|]. intros w' Hw. apply width_pos in Hw; [|lia].
      apply IH; try lia. }
    destruct (c =? 115). { apply bind_nf; [apply Au|]. intros [[s|] ar] _; [|discriminate]. apply bind_nf; [apply strmove0_nf; lia|]. intros t' _. apply IH; lia. }
    destruct (c =? 99). { apply bind_nf; [apply Au|]. intros [x ar] _. apply bind_nf; [apply zwrite_nf|]. intros c1 _. apply bind_nf; [apply zwrite_nf|]. intros c2 _. apply bind_nf; [apply strmove0_nf; lia|]. intros t' _. apply IH; lia. }
    destruct (c =? 100). { apply bind_nf; [apply Au|]. intros [x ar] _. apply Nc; try lia. apply u64_range. }
    destruct (_ || _). { apply bind_nf; [destruct (c =? 108); [apply zread_nf|discriminate]|]. intros c1 _. apply bind_nf; [apply zread_nf|]. intros c2 E2. apply zread_in in E2. destruct (_ && _); [discriminate|]. apply bind_nf; [apply Au|]. intros [x ar] Ea.
      assert (Hx : 0 <= x < 2 ^ 64). { destruct args as [|[y|y|y] l]; try discriminate. injection Ea as <- _. apply u64_range. }
      apply Nc; try lia; try (destruct (c2 =? 100); lia). destruct (c1 =? 108); lia. }
    destruct (c =? 112). { apply bind_nf; [apply Au|]. intros [x ar] Ea. assert (Hx : 0 <= x < 2 ^ 64). { destruct args as [|[y|y|y] l]; try discriminate. injection Ea as <- _. apply u64_range. } apply Nc; lia. }
    destruct (c =? 117). { apply bind_nf; [apply Au|]. intros [x ar] _. apply Nc; try lia. pose proof (u32_range x). lia. }
    destruct (_ || _); [|discriminate]. apply bind_nf; [apply Au|]. intros [x ar] _. apply Nc; try lia; [apply u64_range|]. destruct (c =? 120); lia.
  - destruct (c =? 0); [discriminate|]. destruct (c =? 37); [apply IH; lia|]. cbn [collect bind]. apply IH; lia.
Qed.
Lemma text_run_nf fmt args cbuf : text_run fmt args cbuf <> Fuel.
Proof. unfold text_run. apply loop_nf; unfold zlen; lia. Qed.
