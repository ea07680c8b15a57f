(** Property theorems about hexadecimal text: C32. *)
From Verif Require Import Base Bits Cstr S_num M_hex S_hex P_hex.

(** C32: two lowercase digits per byte and a NUL; the rest of dst keeps its values. *)
Theorem c32_raw2hex_writes_lowercase_hex :
  forall x srest dst, bytes x -> 2 * zlen x + 1 <= zlen dst ->
    raw2hex dst (x ++ srest) (zlen x) = Ret (hex_of x ++ 0 :: zdrop (2 * zlen x + 1) dst).
Proof. exact raw2hex_ok. Qed.
Print Assumptions c32_raw2hex_writes_lowercase_hex.
Example c32_raw2hex_nonvacuous :
  raw2hex [1; 1; 1; 1; 1; 1; 1] [0; 171; 9] 2 = Ret [48; 48; 97; 98; 0; 1; 1].
Proof. reflexivity. Qed.

(** C32: hex text of either case and of odd or even length is stored as big-endian number. *)
Theorem c32_hex2raw_parses_hex :
  forall s vs hrest dst, hextext s vs -> (zlen s + 1) / 2 <= zlen dst ->
    exists bs, hex2raw (s ++ 0 :: hrest) dst = Ret (zlen bs, bs ++ zdrop (zlen bs) dst) /\
      zlen bs = (zlen s + 1) / 2 /\ bytes bs /\ pos_value 256 bs = pos_value 16 vs.
Proof. exact hex2raw_ok. Qed.
Print Assumptions c32_hex2raw_parses_hex.
(* "1Ab" *)
Example c32_hex2raw_nonvacuous : hextext [49; 65; 98] [1; 10; 11] /\
  hex2raw [49; 65; 98; 0] [7; 7; 7] = Ret (2, [1; 171; 7]).
Proof. split; [|reflexivity]. repeat constructor; unfold digit_char; cbn; lia. Qed.

Theorem c32_hex2raw_inverts_raw2hex :
  forall x rest dst, bytes x -> zlen x <= zlen dst ->
    hex2raw (hex_of x ++ 0 :: rest) dst = Ret (zlen x, x ++ zdrop (zlen x) dst).
Proof. exact hex_roundtrip. Qed.
Print Assumptions c32_hex2raw_inverts_raw2hex.
Example c32_roundtrip_nonvacuous : hex2raw (hex_of [0; 255; 16] ++ [0; 5]) [1; 1; 1; 1] = Ret (3, [0; 255; 16; 1]).
Proof. reflexivity. Qed.
