(** Property theorems about base64: C28-C31. *)
From Verif Require Import Base Bits M_base64 S_base64 P_base64.

(** C28: the RFC 4648 encoding and a NUL in the first BASE64ENC_BUFSIZE(count)
    = 1 + (count+2)/3*4 bytes of dst; every other byte keeps its value. *)
Theorem c28_base64enc_is_rfc4648 :
  forall x srest dst,
    bytes x -> 1 + (zlen x + 2) / 3 * 4 <= zlen dst ->
    base64enc dst (x ++ srest) (zlen x) =
    Ret (b64 x ++ 0 :: zdrop (1 + (zlen x + 2) / 3 * 4) dst).
Proof. exact (fun x srest dst => base64enc_ok x dst srest). Qed.
Print Assumptions c28_base64enc_is_rfc4648.
(* the specification gives the test vectors of RFC 4648 section 10 *)
Example c28_spec_vectors :
  b64 [102] = [90; 103; 61; 61] /\ b64 [102; 111] = [90; 109; 56; 61] /\ b64 [102; 111; 111] = [90; 109; 57; 118] /\
  b64 [102; 111; 111; 98; 97; 114] = [90; 109; 57; 118; 89; 109; 70; 121].
Proof. repeat split; vm_compute; reflexivity. Qed.
Example c28_nonvacuous : bytes [104; 0; 255; 7] /\ 1 + (zlen [104; 0; 255; 7] + 2) / 3 * 4 <= zlen (zrepeat 170 12).
Proof. split; [repeat constructor; unfold byte; lia|vm_compute; discriminate]. Qed.

(** C29: decoding an encoding gives the data back, followed by a NUL; the bytes
    beyond dst_len keep their values. *)
Theorem c29_base64dec_inverts_base64enc :
  forall x dst dst_len rest,
    bytes x -> (zlen x + 2) / 3 * 4 <= 2147483647 ->
    zlen (b64 x) / 4 * 3 + 1 <= dst_len <= zlen dst -> dst_len < 2 ^ 64 ->
    exists dst', base64dec dst (b64 x ++ 0 :: rest) dst_len = Ret (zlen x, dst') /\
      ztake (zlen x + 1) dst' = x ++ [0] /\ zlen dst' = zlen dst /\
      zdrop dst_len dst' = zdrop dst_len dst.
Proof. exact roundtrip_take. Qed.
Print Assumptions c29_base64dec_inverts_base64enc.
Example c29_nonvacuous : let x := [0; 200; 13; 10] in
  bytes x /\ (zlen x + 2) / 3 * 4 <= 2147483647 /\ zlen (b64 x) / 4 * 3 + 1 <= 7 <= zlen (zrepeat 1 9).
Proof. split; [repeat constructor; unfold byte; lia|split; vm_compute; intuition discriminate]. Qed.

(** C30: every input, every dst_len.  Nothing at or after dst_len is written; a
    result other than 0 needs a well-formed input that fits. *)
Theorem c30_base64dec_safe_and_strict :
  forall dst dst_len s rest,
    0 <= dst_len <= zlen dst -> dst_len < 2 ^ 64 ->
    bytes s -> Forall (fun c => c <> 0) s -> zlen s <= 2147483647 ->
    exists r dst', base64dec dst (s ++ 0 :: rest) dst_len = Ret (r, dst') /\
      zlen dst' = zlen dst /\ zdrop dst_len dst' = zdrop dst_len dst /\
      (forall pad, is_b64 s pad -> zlen s / 4 * 3 + 1 <= dst_len ->
         r = zlen s / 4 * 3 - pad /\ ztake r dst' = b64_decoded s pad /\
         dst' = b64_raw s ++ 0 :: zdrop (zlen s / 4 * 3 + 1) dst) /\
      ((forall pad, ~ is_b64 s pad) \/ dst_len < zlen s / 4 * 3 + 1 -> r = 0).
Proof. exact dec_full. Qed.
Print Assumptions c30_base64dec_safe_and_strict.
Example c30_nonvacuous : is_b64 [90; 109; 56; 61] 1 /\ bytes [90; 109; 56; 61].
Proof.
  split; [|repeat constructor; unfold byte; lia].
  exists [90; 109; 56]. split; [reflexivity|]. split; [|split; [lia|reflexivity]].
  repeat constructor; [exists 25|exists 38|exists 60]; (split; [lia|reflexivity]).
Qed.

(** C30: the byte after the decoded data need not be NUL: "AB==" *)
Theorem c30_terminated_refuted :
  exists s dst r dst', is_b64 s 2 /\ zlen s / 4 * 3 + 1 <= zlen dst /\
    base64dec dst (s ++ [0]) (zlen dst) = Ret (r, dst') /\ r = 1 /\ znth 0 dst' r <> 0.
Proof.
  exists [65; 66; 61; 61], [9; 9; 9; 9], 1. eexists. split.
  - exists [65; 66]. split; [reflexivity|]. split; [|split; [lia|reflexivity]].
    repeat constructor; [exists 0|exists 1]; (split; [lia|reflexivity]).
  - split; [vm_compute; discriminate|]. split; [vm_compute; reflexivity|]. split; [reflexivity|vm_compute; discriminate].
Qed.
Print Assumptions c30_terminated_refuted.

(** C31: all of the encoding with result 1 iff it fits, else the encoding of the
    longest prefix of full groups that fits with result 0; bytes at and after
    dst_len keep their values. *)
Theorem c31_base64enc_str_complete_or_prefix :
  forall s rest dst dst_len,
    bytes s -> Forall (fun c => c <> 0) s -> 0 <= dst_len <= zlen dst ->
    let need := (zlen s + 2) / 3 * 4 + 1 in
    (need <= dst_len ->
       base64enc_str dst (s ++ 0 :: rest) dst_len = Ret (1, b64 s ++ 0 :: zdrop need dst)) /\
    (1 <= dst_len < need ->
       let k := (dst_len - 1) / 4 in
       base64enc_str dst (s ++ 0 :: rest) dst_len =
       Ret (0, b64 (ztake (3 * k) s) ++ 0 :: zdrop (4 * k + 1) dst)) /\
    (dst_len = 0 -> base64enc_str dst (s ++ 0 :: rest) dst_len = Ret (0, dst)).
Proof. exact enc_str_ok. Qed.
Print Assumptions c31_base64enc_str_complete_or_prefix.
Example c31_nonvacuous : let s := [65; 66; 67; 200; 1] in bytes s /\ Forall (fun c => c <> 0) s /\
  0 <= 6 <= zlen (zrepeat 3 20) /\ 1 <= 6 < (zlen s + 2) / 3 * 4 + 1.
Proof. split; [repeat constructor; unfold byte; lia|]. split; [repeat constructor; lia|]. split; vm_compute; intuition discriminate. Qed.
