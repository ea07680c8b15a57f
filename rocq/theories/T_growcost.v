(** Property C114: what growing costs. *)
From Verif Require Import Base M_sblist S_sblist D_sblist M_tglist S_tglist D_tglist D_growcost P_growcost.

(** tglist: along every history of calls the blocks given up had 0, 4, 8, 16, ... slots, in
    this order; all copying together is less than twice the number of added items *)
Theorem c114_tglist : forall A isz (h : list (talloc A * lop A)), 1 <= isz -> (2 * zlen h + 4) * isz < 2 ^ 64 -> tcaller_ok isz tglist_init h ->
  exists c l rs, tgrown isz tglist_init h = Ret (c, l) /\ trun isz tglist_init h = Ret (rs, l) /\
    c = map (fun i => if Z.of_nat i =? 0 then 0 else 4 * 2 ^ (Z.of_nat i - 1)) (seq 0 (length c)) /\
    (c = [] -> tcapa l = 0) /\ (c <> [] -> tcapa l = 4 * 2 ^ (zlen c - 1) /\ total c = tcapa l - 4 /\ tcapa l < 2 * tadds h + 3).
Proof. exact tgrown_thm. Qed.
Print Assumptions c114_tglist.

(** sblist: the blocks given up had 0, 1, 2, ... times blockitems slots; k reallocations need
    more than (k-1) * blockitems additions *)
Theorem c114_sblist : forall itemsize blockitems l0 h, sblist_init itemsize blockitems = Ret l0 -> 1 <= itemsize -> (1 <= blockitems \/ blockitems = 0 /\ itemsize <= 4096) ->
  (zlen h + 1 + bits l0) * itemsize < 2 ^ 64 -> caller_ok l0 h ->
  exists c l rs xs, sgrown l0 h = Ret (c, l) /\ run l0 h = Ret (rs, l) /\ spec_run [] rs xs /\ reads_as l xs /\
    c = map (fun i => Z.of_nat i * bits l0) (seq 0 (length c)) /\ capa l = zlen c * bits l0 /\
    2 * total c = bits l0 * (zlen c * (zlen c - 1)) /\ zlen xs <= zlen c * bits l0 /\ (c <> [] -> (zlen c - 1) * bits l0 < sadds h).
Proof. exact sgrown_thm. Qed.
Print Assumptions c114_sblist.

(** n additions with memory: k = ceil (n / blockitems) reallocations, and blockitems * k *
    (k - 1) / 2 slots copied - quadratic in n *)
Theorem c114_sblist_adds : forall itemsize blockitems l0 h, sblist_init itemsize blockitems = Ret l0 -> 1 <= itemsize -> (1 <= blockitems \/ blockitems = 0 /\ itemsize <= 4096) ->
  (zlen h + 1 + bits l0) * itemsize < 2 ^ 64 -> caller_ok l0 h -> Forall (fun x => mem_ok (fst x) = true /\ exists y, snd x = Add y) h ->
  exists c l, sgrown l0 h = Ret (c, l) /\ cnt l = zlen h /\ (zlen c - 1) * bits l0 < zlen h <= zlen c * bits l0 /\
    2 * total c = bits l0 * (zlen c * (zlen c - 1)).
Proof. exact adds_thm. Qed.
Print Assumptions c114_sblist_adds.

Example c114_ex :
  let a := Some (fun _ => 0) in let s := (a, Add [7]) in let t := (a, LAdd 5) in
  (exists l, sgrown (mkSbl 1 2 0 0 []) [s; s; s; (a, Delete 0); s; s; s; (None, Insert [1] 0)] = Ret ([0; 2; 4], l) /\ capa l = 6) /\
  (exists l, tgrown 8 tglist_init [t; t; t; (None, LDel 0); t; t; t; (None, LIns 3 0)] = Ret ([0; 4], l) /\ tcapa l = 8) /\
  caller_ok (mkSbl 1 2 0 0 []) [s; s; s; (a, Delete 0); s; s; s; (None, Insert [1] 0)] /\
  tcaller_ok 8 tglist_init [t; t; t; (None, LDel 0); t; t; t; (None, LIns 3 0)].
Proof.
  cbv zeta. split; [eexists; split; [vm_compute; reflexivity|reflexivity]|]. split; [eexists; split; [vm_compute; reflexivity|reflexivity]|]. split; vm_compute; repeat (split || discriminate).
Qed.
