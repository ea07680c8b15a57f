(** Property theorems about rc4: C43. *)
From Verif Require Import Base M_rc4 S_rc4 P_rc4.

(** C43: dst gets src xor the RC4 key stream, everything else keeps its value, nothing is
    accessed out of bounds.  dst and src may be equal, disjoint, or overlap with dst below src. *)
Theorem c43_rc4_is_rc4 :
  forall mem d s len key keyrest, key <> [] -> bytes key -> zlen key < 18446744073709551615 -> bytes mem ->
  0 <= len -> 0 <= d -> 0 <= s -> d + len <= zlen mem -> s + len <= zlen mem -> (d <= s \/ s + len <= d) ->
  rc4 mem d s len (key ++ keyrest) (zlen key) =
  Ret (ztake d mem ++ xor_bytes (ztake len (zdrop s mem)) (keystream key len) ++ zdrop (d + len) mem).
Proof. exact rc4_ok. Qed.
Print Assumptions c43_rc4_is_rc4.
Theorem c43_rc4_twice_in_place :
  forall mem d len key keyrest, key <> [] -> bytes key -> zlen key < 18446744073709551615 -> bytes mem ->
  0 <= len -> 0 <= d -> d + len <= zlen mem ->
  exists mem', rc4 mem d d len (key ++ keyrest) (zlen key) = Ret mem' /\ rc4 mem' d d len (key ++ keyrest) (zlen key) = Ret mem.
Proof. exact rc4_twice. Qed.
Print Assumptions c43_rc4_twice_in_place.
(** the guard keylen >= 1 is needed *)
Theorem c43_rc4_empty_key_ub : forall mem d s len, rc4 mem d s len [] 0 = UB.
Proof. exact rc4_keylen0. Qed.
Print Assumptions c43_rc4_empty_key_ub.
(** key "Key", text "Plaintext": BB F3 16 E8 D9 40 AF 0A D3 *)
Example c43_vector : rc4 [80; 108; 97; 105; 110; 116; 101; 120; 116] 0 0 9 [75; 101; 121; 0] 3 =
  Ret [187; 243; 22; 232; 217; 64; 175; 10; 211].
Proof. vm_compute. reflexivity. Qed.
Example c43_spec_vector : keystream [75; 101; 121] 4 = [235; 159; 119; 129].
Proof. vm_compute. reflexivity. Qed.
