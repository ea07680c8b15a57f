(** Property theorems about IPv4 text: C38, C39. *)
From Verif Require Import Base Bits Cstr S_num M_num M_ip S_ip P_ip.

(** C38: the canonical dotted quad and a NUL, at most 16 bytes; the rest of the buffer
    keeps its values. *)
Theorem c38_stringfromipv4_dotted_quad :
  forall bs rest buf, zlen bs = 4 -> bytes bs -> 16 <= zlen buf ->
    exists s, dotted bs s /\ zlen s <= 15 /\ stringfromipv4 (bs ++ rest) buf = Ret (s ++ 0 :: zdrop (zlen s + 1) buf).
Proof. exact stringfromipv4_ok. Qed.
Print Assumptions c38_stringfromipv4_dotted_quad.
Theorem c38_ipv4fromstring_inverts :
  forall bs rest buf out4, zlen bs = 4 -> bytes bs -> 16 <= zlen buf -> 4 <= zlen out4 ->
    exists buf', stringfromipv4 (bs ++ rest) buf = Ret buf' /\ ipv4fromstring buf' out4 = Ret (1, bs ++ zdrop 4 out4).
Proof. exact ipv4_roundtrip. Qed.
Print Assumptions c38_ipv4fromstring_inverts.
Theorem c38_isnumericipv4_accepts_canonical :
  forall bs rest buf, zlen bs = 4 -> bytes bs -> 16 <= zlen buf ->
    exists buf', stringfromipv4 (bs ++ rest) buf = Ret buf' /\ isnumericipv4 buf' = Ret 1.
Proof. exact isnumericipv4_canonical. Qed.
Print Assumptions c38_isnumericipv4_accepts_canonical.
(** more generally: four fields of up to 18 digits (also none), read modulo 256, and
    anything after the fourth field is ignored *)
Theorem c38_ipv4fromstring_fields :
  forall a b c d e rest out4, (e = 46 \/ e = 0) ->
    Forall (fun ds => digits_ok 10 ds /\ zlen ds <= 18) [a; b; c; d] -> 4 <= zlen out4 ->
    ipv4fromstring (map (digit_char false) a ++ 46 :: map (digit_char false) b ++ 46 :: map (digit_char false) c ++ 46 ::
                    map (digit_char false) d ++ e :: rest) out4 =
    Ret (1, map (fun ds => pos_value 10 ds mod 256) [a; b; c; d] ++ zdrop 4 out4).
Proof. exact ipv4fromstring_ok. Qed.
Print Assumptions c38_ipv4fromstring_fields.
(* 10.0.255.9 *)
Example c38_nonvacuous :
  stringfromipv4 [10; 0; 255; 9; 77] (zrepeat 1 16) = Ret [49; 48; 46; 48; 46; 50; 53; 53; 46; 57; 0; 1; 1; 1; 1; 1] /\
  ipv4fromstring [49; 48; 46; 48; 46; 50; 53; 53; 46; 57; 0] [3; 3; 3; 3; 3] = Ret (1, [10; 0; 255; 9; 3]).
Proof. split; reflexivity. Qed.

(** C39: the accepted strings, exactly. *)
Theorem c39_isnumericipv4_language :
  forall s rest, nz s ->
    exists r, isnumericipv4 (s ++ 0 :: rest) = Ret r /\ (r = 1 /\ loose_quad s \/ r = 0 /\ ~ loose_quad s).
Proof. exact isnumericipv4_exact. Qed.
Print Assumptions c39_isnumericipv4_language.
(** every proper dotted quad is accepted; the converse is missing (refuted below) *)
Theorem c39_isnumericipv4_accepts_quads_partial :
  forall s rest, strict_quad s -> isnumericipv4 (s ++ 0 :: rest) = Ret 1.
Proof. exact isnumericipv4_strict. Qed.
Print Assumptions c39_isnumericipv4_accepts_quads_partial.
(* "1.22.3.4" *)
Example c39_nonvacuous : strict_quad [49; 46; 50; 50; 46; 51; 46; 52].
Proof.
  exists [49], [50; 50], [51], [52]. split; [reflexivity|].
  repeat constructor; unfold is_digit; cbn; lia.
Qed.
(** "12.3.4." and "1234567.1.1.1" are accepted *)
Theorem c39_only_quads_accepted_refuted :
  exists s1 s2, isnumericipv4 (s1 ++ [0]) = Ret 1 /\ ~ strict_quad s1 /\
                isnumericipv4 (s2 ++ [0]) = Ret 1 /\ ~ strict_quad s2 /\ zlen s1 = 7 /\ zlen s2 = 13.
Proof. exact not_only_quads. Qed.
Print Assumptions c39_only_quads_accepted_refuted.
