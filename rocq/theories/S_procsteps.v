(** The calls process_open makes that can fail (C66), but for the initialisation. *)
From Verif Require Import Base M_proc.

Definition call (s : step) : Prop :=
  s = SSpawn \/ exists i, 0 <= i < 3 /\ (s = SClose1 i \/ s = SPipe i \/ s = SDup2 i \/ s = SClose2 i 0 \/ s = SClose2 i 1).
