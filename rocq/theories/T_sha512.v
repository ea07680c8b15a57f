(** C46: SHA-512. *)
From Verif Require Import Base M_sha512 S_hash S_sha512 D_sha512 P_sha512b.

(** C46: after sha512_init and any updates that follow the chunking rule, sha512_end gives the
    SHA-512 of the concatenated data. *)
Theorem c46_sha512 c calls : zlen (ch c) = 64 -> zlen (cx c) = 256 -> Forall (fun c => bytes (chunk c)) calls -> allowed (map chunk calls) ->
  zlen (concat (map chunk calls)) < 2 ^ 64 -> sha_run c calls = Ret (sha512 (concat (map chunk calls))).
Proof. exact (run_ok c calls). Qed.
Print Assumptions c46_sha512.
(** 128 bytes, then "abc", then an empty update *)
Example c46_ex : sha_run (mkCtx (zrepeat 5 64) (zrepeat 5 256) 3) [([], zrepeat 7 128, []); ([1], [97; 98; 99], [2]); ([], [], [])] = Ret
  [23; 58; 240; 160; 47; 149; 224; 121; 87; 126; 38; 214; 108; 3; 6; 1; 46; 56; 230; 101; 238; 77; 155; 26; 123; 159; 233; 66; 34; 209; 76; 234; 230; 88; 76; 109; 141; 172; 24; 164; 200; 50; 165; 65; 1; 189; 254; 227; 142; 14; 84; 17; 240; 201; 97; 54; 127; 240; 169; 32; 91; 48; 127; 234].
Proof. vm_compute. reflexivity. Qed.
Example c46_ex_spec : sha512 (zrepeat 7 128 ++ [97; 98; 99]) =
  [23; 58; 240; 160; 47; 149; 224; 121; 87; 126; 38; 214; 108; 3; 6; 1; 46; 56; 230; 101; 238; 77; 155; 26; 123; 159; 233; 66; 34; 209; 76; 234; 230; 88; 76; 109; 141; 172; 24; 164; 200; 50; 165; 65; 1; 189; 254; 227; 142; 14; 84; 17; 240; 201; 97; 54; 127; 240; 169; 32; 91; 48; 127; 234].
Proof. vm_compute. reflexivity. Qed.
(** the rule is needed: "ab" in two updates *)
Example c46_ex_rule : match sha_run (mkCtx (zrepeat 5 64) (zrepeat 5 256) 3) [([], [97], []); ([], [98], [])] with Ret h => znth 0 h 0 =? znth 0 (sha512 [97; 98]) 0 | _ => true end = false.
Proof. vm_compute. reflexivity. Qed.
