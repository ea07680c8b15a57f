(** When the lists ask for memory, as their documentation has it: an sblist whenever another block of items is full
    (include/sblist.h 6-28), a tglist first for 4 items and then for twice as many each time. *)
From Verif Require Import Base.
(** a list that has n items must grow to take one more *)
Definition sblist_grows (blockitems n : Z) : Prop := (blockitems | n).
Definition tglist_grows (n : Z) : Prop := n = 0 \/ exists m, 0 <= m /\ n = 4 * 2 ^ m.
