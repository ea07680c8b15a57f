(** C58: iniparser_get_next_section behind any place of the file, also one that is no section. *)
From Verif Require Import Base M_stringptr D_stringptr P_stringptr M_ini S_ini P_ini.

(** the first section of that name behind the lines of prev, whose end is reduced modulo 2^64; {0,0} if there is none *)
Theorem c58_next_any : forall name nt ini ls s c, holds name nt -> Forall2 holds ini ls ->
  let st := (s + c) mod 2 ^ 64 in iniparser_get_next_section ini name (s, c) = Ret (hd (0, 0) (sections nt st (zdrop st ls))).
Proof.
  intros name nt ini ls s c Hn Hi st. unfold iniparser_get_next_section. cbn [fst snd]. change (u64 (s + c)) with st. assert (B : 0 <= st) by (apply Z.mod_pos_bound; lia).
  destruct (Z_le_gt_dec st (zlen ls)) as [L|L]; [apply (section_at name nt Hn ini ls Hi); lia|].
  assert (Le : length ini = length ls) by (clear - Hi; induction Hi; cbn; congruence). unfold iniparser_get_section_at. cbn [section_loop]. replace (st <? zlen ini) with false by (unfold zlen in *; lia).
  unfold zdrop. rewrite skipn_all2 by (unfold zlen in L; lia). reflexivity.
Qed.
Print Assumptions c58_next_any.
(** so {0,0}, the answer behind the last section, leads to the first one again *)
Theorem c58_next_restarts : forall name ini, iniparser_get_next_section ini name (0, 0) = iniparser_get_section ini name.
Proof. reflexivity. Qed.
Print Assumptions c58_next_restarts.
(* [a] [b] [a]: behind lines 0 and 1 the second [a], behind line 0 of a "section" starting at 0 the same *)
Example c58_next_any_ex : let mk t := mkSp (t ++ [0]) 0 (zlen t) in let ini := map mk [[91; 97; 93]; [91; 98; 93]; [91; 97; 93]; [120]] in
  iniparser_get_next_section ini (mk [97]) (0, 1) = Ret (3, 1) /\ iniparser_get_next_section ini (mk [97]) (0, 3) = Ret (0, 0) /\ iniparser_get_next_section ini (mk [97]) (0, 0) = Ret (1, 0) /\
  iniparser_get_next_section ini (mk [97]) (2 ^ 64 - 1, 2) = Ret (3, 1).
Proof. repeat split; vm_compute; reflexivity. Qed.
