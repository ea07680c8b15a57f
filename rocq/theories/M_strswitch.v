(** Model of include/strswitch.h: the case lists of its macros.  STRSWITCH_LETTERS_UC, _LC and _NUMBERS are
    UC, LC and NUMS of M_str. *)
From Verif Require Import Base M_str.

(** strswitch.h 12 *)
Definition LETTERS : list Z := UC ++ LC.
(** strswitch.h 16 *)
Definition ALPHA : list Z := UC ++ LC ++ NUMS.
(** strswitch.h 18 *)
Definition MATH_OPS : list Z := [42; 47; 43; 45; 37; 61].
(** strswitch.h 21-23 *)
Definition NON_ALPHA_C : list Z := MATH_OPS ++ [32; 64; 44; 59; 46; 58; 95; 33; 36; 38; 40; 41; 91; 93; 123; 125; 60; 62; 35; 126].
(** strswitch.h 26-28 *)
Definition NON_ALPHA_SH : list Z := MATH_OPS ++ [32; 64; 44; 59; 46; 58; 95; 33; 38; 40; 41; 91; 93; 123; 125; 60; 62; 35; 126].
(** strswitch.h 30 *)
Definition NON_ALPHA : list Z := NON_ALPHA_C ++ [63; 34; 39; 92].
(** strswitch.h 32-34 *)
Definition PRINTABLE : list Z := ALPHA ++ NON_ALPHA.
Definition C_PRINTABLE : list Z := ALPHA ++ NON_ALPHA_C.
Definition SH_PRINTABLE : list Z := ALPHA ++ NON_ALPHA_SH.
