(** Property theorems about number conversion: C33-C37. *)
From Verif Require Import Base Bits Cstr S_num L_num M_num P_num.

(** C33: maxlen 0, even base 2..62, any flags.  The result is the start of the buffer,
    which holds sign, shortest digits and NUL; the rest keeps its values. *)
Theorem c33_numberToString_exact :
  forall number base buffer flags,
    0 <= number < 2 ^ 64 -> 2 <= base <= 62 -> base mod 2 = 0 ->
    exists ds, is_repr base (mag_of number flags) ds /\
      let text := sign_str (neg_of number flags) ++ map (digit_char (lower_of base flags)) ds ++ [0] in
      (zlen text <= zlen buffer ->
       numberToString number base buffer 0 flags = Ret (Some (0, text ++ zdrop (zlen text) buffer))).
Proof. exact nts_exact. Qed.
Print Assumptions c33_numberToString_exact.
(* (uint64_t)-254, base 16, signed + lowercase: "-fe" *)
Example c33_nonvacuous :
  numberToString (2 ^ 64 - 254) 16 [1; 1; 1; 1; 1; 1] 0 6 = Ret (Some (0, [45; 102; 101; 0; 1; 1])).
Proof. reflexivity. Qed.
(** the representation is determined by the number *)
Theorem c33_representation_unique :
  forall b n x y, 2 <= b -> is_repr b n x -> is_repr b n y -> x = y.
Proof. exact repr_unique. Qed.
Print Assumptions c33_representation_unique.
Example c33_unique_nonvacuous : is_repr 10 507 [5; 0; 7].
Proof. split; [repeat constructor; lia|]. split; [reflexivity|]. right. exists 5, [0; 7]. split; [reflexivity|lia]. Qed.
(** any other base gives NULL and touches nothing *)
Theorem c33_other_base_null :
  forall number base buffer maxlen flags, base mod 2 <> 0 \/ 62 < base ->
    numberToString number base buffer maxlen flags = Ret None.
Proof. exact nts_other_base. Qed.
Print Assumptions c33_other_base_null.

(** C33: the decimal printers, for every value of their argument type. *)
Theorem c33_int64ToString_decimal :
  forall n buffer, - 2 ^ 63 <= n < 2 ^ 63 ->
    exists s, is_decimal n s /\ (zlen s + 1 <= zlen buffer ->
      int64ToString n buffer = Ret (Some (0, s ++ 0 :: zdrop (zlen s + 1) buffer))).
Proof. exact int64ToString_ok. Qed.
Print Assumptions c33_int64ToString_decimal.
Theorem c33_uint64ToString_decimal :
  forall n buffer, 0 <= n < 2 ^ 64 ->
    exists s, is_decimal n s /\ (zlen s + 1 <= zlen buffer ->
      uint64ToString n buffer = Ret (Some (0, s ++ 0 :: zdrop (zlen s + 1) buffer))).
Proof. exact uint64ToString_ok. Qed.
Print Assumptions c33_uint64ToString_decimal.
Theorem c33_intToString_decimal :
  forall n buffer, - 2 ^ 31 <= n < 2 ^ 31 ->
    exists s, is_decimal n s /\ (zlen s + 1 <= zlen buffer ->
      intToString n buffer = Ret (Some (0, s ++ 0 :: zdrop (zlen s + 1) buffer))).
Proof. exact intToString_ok. Qed.
Print Assumptions c33_intToString_decimal.
Theorem c33_uintToString_decimal :
  forall n buffer, 0 <= n < 2 ^ 32 ->
    exists s, is_decimal n s /\ (zlen s + 1 <= zlen buffer ->
      uintToString n buffer = Ret (Some (0, s ++ 0 :: zdrop (zlen s + 1) buffer))).
Proof. exact uintToString_ok. Qed.
Print Assumptions c33_uintToString_decimal.
Example c33_decimal_nonvacuous :
  intToString (-2147483648) (zrepeat 7 13) = Ret (Some (0, [45; 50; 49; 52; 55; 52; 56; 51; 54; 52; 56; 0; 7])).
Proof. reflexivity. Qed.

(** C34, partial: the digits and where they are written are as promised for all flags,
    but the padding is only removed when flags is 0 altogether (see the refutation). *)
Theorem c34_numberToString_maxlen_partial :
  forall number base buffer maxlen flags,
    0 <= number < 2 ^ 64 -> 2 <= base <= 62 -> base mod 2 = 0 -> 0 < maxlen <= 2147483647 ->
    maxlen + 1 + b2z (neg_of number flags) <= zlen buffer ->
    exists ds off,
      zlen ds = maxlen /\ digits_ok base ds /\ pos_value base ds = mag_of number flags mod base ^ maxlen /\
      let text := sign_str (neg_of number flags) ++ map (digit_char (lower_of base flags)) ds ++ [0] in
      numberToString number base buffer maxlen flags = Ret (Some (off, text ++ zdrop (zlen text) buffer)) /\
      (flags <> 0 -> off = 0) /\
      (flags = 0 -> number = 0 -> off = maxlen - 1) /\
      (flags = 0 -> number <> 0 -> exists ds', ds = zrepeat 0 off ++ ds' /\ 0 <= off /\
         (ds' = [] \/ exists d q, ds' = d :: q /\ d <> 0)).
Proof. exact nts_padded. Qed.
Print Assumptions c34_numberToString_maxlen_partial.
Example c34_nonvacuous : numberToString 5 10 [1; 1; 1; 1; 1] 3 0 = Ret (Some (2, [48; 48; 53; 0; 1])).
Proof. reflexivity. Qed.
(** NTS_SIGNED_TYPE or NTS_LOWERCASE_CHARS without NTS_PAD still pads: "005"; and
    without flags 100 cut to two digits is the empty string *)
Theorem c34_pad_only_if_requested_refuted :
  numberToString 5 10 [1; 1; 1; 1; 1] 3 2 = Ret (Some (0, [48; 48; 53; 0; 1])) /\
  numberToString 5 10 [1; 1; 1; 1; 1] 3 4 = Ret (Some (0, [48; 48; 53; 0; 1])) /\
  numberToString 100 10 [1; 1; 1; 1; 1] 2 0 = Ret (Some (2, [48; 48; 0; 1; 1])).
Proof. exact (conj eq_refl (conj eq_refl eq_refl)). Qed.
Print Assumptions c34_pad_only_if_requested_refuted.

(** C35: every int except the least; 12 bytes are enough. *)
Theorem c35_itoa_decimal :
  forall n buffer, -2147483648 < n < 2147483648 ->
    exists s, is_decimal n s /\ zlen s <= 11 /\ (zlen s + 1 <= zlen buffer ->
      itoa n buffer = Ret (s ++ 0 :: zdrop (zlen s + 1) buffer)).
Proof. exact itoa_ok. Qed.
Print Assumptions c35_itoa_decimal.
Theorem c35_itoa_int_min_refuted : forall buffer, itoa (-2147483648) buffer = UB.
Proof. exact itoa_min. Qed.
Print Assumptions c35_itoa_int_min_refuted.
Example c35_nonvacuous : itoa (-2147483647) (zrepeat 3 12) = Ret [45; 50; 49; 52; 55; 52; 56; 51; 54; 52; 55; 0].
Proof. reflexivity. Qed.

(** C36, partial: values up to 3294967296; 11 bytes are enough. *)
Theorem c36_utoa_decimal_partial :
  forall n buffer, 0 <= n <= 3294967296 ->
    exists s, is_decimal n s /\ zlen s <= 10 /\ (zlen s + 1 <= zlen buffer ->
      utoa n buffer = Ret (s ++ 0 :: zdrop (zlen s + 1) buffer)).
Proof. exact utoa_ok. Qed.
Print Assumptions c36_utoa_decimal_partial.
Example c36_nonvacuous : utoa 3000000000 (zrepeat 3 12) = Ret [51; 48; 48; 48; 48; 48; 48; 48; 48; 48; 0; 3].
Proof. reflexivity. Qed.
(** every larger value is written before the start of the buffer *)
Theorem c36_utoa_underflow_refuted :
  forall n buffer, 3294967296 < n < 4294967296 -> 11 <= zlen buffer -> utoa n buffer = UB.
Proof. exact utoa_bad. Qed.
Print Assumptions c36_utoa_underflow_refuted.

(** C37: the parsers invert decimal text.  The text may continue after len bytes. *)
Theorem c37_strtoint_inverts :
  forall n s rest, is_decimal n s -> -2147483648 < n < 2147483648 -> strtoint (s ++ rest) (zlen s) = Ret n.
Proof. exact strtoint_inverts. Qed.
Print Assumptions c37_strtoint_inverts.
Theorem c37_strtoint64_inverts :
  forall n s rest, is_decimal n s -> - 10 ^ 18 < n < 10 ^ 18 -> strtoint64 (s ++ rest) (zlen s) = Ret n.
Proof. exact strtoint64_inverts. Qed.
Print Assumptions c37_strtoint64_inverts.
(** hence strtoint of what intToString wrote *)
Theorem c37_strtoint_of_intToString :
  forall n buffer, -2147483648 < n < 2147483648 -> 12 <= zlen buffer ->
    exists buf len, intToString n buffer = Ret (Some (0, buf)) /\ strlen buf 0 = Ret len /\ strtoint buf len = Ret n.
Proof. exact strtoint_intToString. Qed.
Print Assumptions c37_strtoint_of_intToString.
Example c37_inverts_nonvacuous : strtoint [45; 51; 57; 120] 3 = Ret (-39) /\ is_decimal (-39) [45; 51; 57].
Proof.
  split; [reflexivity|]. exists [3; 9]. split; [|reflexivity]. split; [repeat constructor; lia|]. split; [reflexivity|].
  right. exists 3, [9]. split; [reflexivity|lia].
Qed.

(** C37: the exact result for optional '-' and 1 to 18 digits (leading zeroes allowed):
    strtoint reduces modulo 2^32, and negating the result -2^31 overflows *)
Theorem c37_exact_up_to_18_digits :
  forall neg ds rest, 0 < zlen ds -> digits_ok 10 ds -> zlen ds <= 18 ->
    strtoint (sign_str neg ++ map (digit_char false) ds ++ rest) (b2z neg + zlen ds) =
      (if neg then int_r (- s32 (pos_value 10 ds)) else Ret (s32 (pos_value 10 ds))) /\
    strtoint64 (sign_str neg ++ map (digit_char false) ds ++ rest) (b2z neg + zlen ds) =
      Ret (if neg then - pos_value 10 ds else pos_value 10 ds).
Proof. exact strtoint_run. Qed.
Print Assumptions c37_exact_up_to_18_digits.
(** C37: with 19 digits or more both overflow *)
Theorem c37_long_input_overflows :
  forall neg ds rest, digits_ok 10 ds -> 19 <= zlen ds ->
    strtoint (sign_str neg ++ map (digit_char false) ds ++ rest) (b2z neg + zlen ds) = UB /\
    strtoint64 (sign_str neg ++ map (digit_char false) ds ++ rest) (b2z neg + zlen ds) = UB.
Proof. exact strtoint_long. Qed.
Print Assumptions c37_long_input_overflows.
Example c37_exact_nonvacuous :
  strtoint [52; 50; 57; 52; 57; 54; 55; 50; 57; 55] 10 = Ret 1 /\   (* 4294967297 *)
  strtoint [45; 50; 49; 52; 55; 52; 56; 51; 54; 52; 56] 11 = UB /\  (* -2147483648 *)
  strtoint64 (zrepeat 48 19) 19 = UB.
Proof. repeat split; reflexivity. Qed.
