(** Proofs about the example programs: the crc of crc32_printer.c, find_identical_files.c. *)
From Verif Require Import Base Bits M_crc32 S_crc32 P_crc32 M_ex S_ex.

Transparent step steps upd.
Lemma r4_byte_ok n : forall c, 0 <= c -> r4_byte n c = steps 0xedb88320 n c.
Proof.
  induction n as [|n IH]; intros c C; [reflexivity|]. cbn [r4_byte steps]. assert (E : Z.lxor (Z.shiftr c 1) (if Z.land c 1 =? 0 then 0 else 0xedb88320) = step 0xedb88320 c).
  { unfold step. f_equal. change 1 with (Z.ones 1). rewrite Z.land_ones by lia. change (2 ^ 1) with 2. rewrite Zmod_odd. now destruct (Z.odd c). }
  rewrite E. apply IH. unfold step. apply Z.lxor_nonneg. destruct (Z.odd c); split; intros; try lia; apply Z.shiftr_nonneg; lia.
Qed.
Opaque step steps upd.
Lemma r4_update_ok l : forall p q c, bytes l -> 0 <= c < 2 ^ 32 -> r4_update (length l) c (p ++ l ++ q) (zlen p) = Ret (fold_left (upd 0xedb88320) l c).
Proof.
  induction l as [|b l IH]; intros p q c B C; [reflexivity|]. apply bytes_cons in B as [Bb B]. cbn [length r4_update]. cbn [app]. rewrite zread_at by auto. cbn [bind]. rewrite fold_cons.
  assert (X : 0 <= Z.lxor c b) by (apply Z.lxor_nonneg; unfold byte in Bb; lia). rewrite r4_byte_ok by exact X. rewrite <- upd_def.
  replace (zlen p + 1) with (zlen (p ++ [b])) by (zl; lia). replace (p ++ b :: l ++ q) with ((p ++ [b]) ++ l ++ q) by (now rewrite <- app_assoc). apply IH; auto. apply upd_u32; auto. lia.
Qed.
Lemma r4_final_ok c : 0 <= c < 2 ^ 32 -> wire_bits (r4_final c) = bitsn 32 c /\ bytes (r4_final c) /\ zlen (r4_final c) = 4.
Proof.
  intros C. split; [|split; [|reflexivity]].
  - unfold r4_final, wire_bits. cbn [map concat]. change 0xff with 255. rewrite !byte_bits_at by lia. unfold bitsn. cbn [seq map app Z.of_nat Pos.of_succ_nat Pos.succ Z.add Pos.add]. reflexivity.
  - unfold r4_final. cbn [map]. change 0xff with (Z.ones 8). repeat (apply bytes_cons; split; [rewrite Z.land_ones by lia; unfold byte; change 256 with (2 ^ 8); apply Z.mod_pos_bound; lia|]). constructor.
Qed.
(** ** compare_files *)
Lemma compare_ok fuel : forall f1 f2, (length f1 < fuel)%nat -> exists r, compare_loop fuel f1 f2 = Ret r /\ (r = 0 \/ r = 1) /\
  (r = 0 <-> f1 = f2 \/ (zlen f1 mod 16384 = 0 /\ exists t, f2 = f1 ++ t)).
Proof.
  induction fuel as [|fuel IH]; intros f1 f2 F; [lia|]. cbn [compare_loop]. rewrite !zlen_ztake_min by lia. pose proof (zlen_nonneg f1). pose proof (zlen_nonneg f2).
  destruct (Z.eqb_spec (Z.min 16384 (zlen f1)) 0) as [E|E].
  { assert (f1 = []) as -> by (apply zlen_0; lia). exists 0. split; [reflexivity|]. split; [auto|]. split; [|reflexivity]. intros _. right. split; [reflexivity|]. now exists f2. }
  destruct (Z.eqb_spec (Z.min 16384 (zlen f1)) (Z.min 16384 (zlen f2))) as [E2|E2]; cbn [negb].
  2: { exists 1. split; [reflexivity|]. split; [auto|]. split; [lia|]. intros [->|(M & t & ->)]; [congruence|]. rewrite zlen_app in E2. pose proof (zlen_nonneg t). apply Z.mod_divide in M as [k M]; [|lia]. lia. }
  destruct (list_eq_dec Z.eq_dec (ztake 16384 f1) (ztake 16384 f2)) as [E3|E3]; cbn [negb].
  2: { exists 1. split; [reflexivity|]. split; [auto|]. split; [lia|]. intros [->|(M & t & ->)]; [congruence|]. apply Z.mod_divide in M as [k M]; [|lia]. rewrite ztake_app1 in E3 by lia. congruence. }
  destruct (IH (zdrop 16384 f1) (zdrop 16384 f2)) as (r & E4 & R & I).
  { assert (L : zlen (zdrop 16384 f1) < zlen f1). { destruct (Z_le_dec 16384 (zlen f1)); [rewrite zlen_zdrop by lia; lia|rewrite zdrop_all by lia; change (zlen []) with 0; lia]. } unfold zlen in L. lia. }
  exists r. split; [exact E4|]. split; [exact R|]. rewrite I. rewrite <- (ztake_zdrop 16384 f1) at 3. rewrite <- (ztake_zdrop 16384 f2) at 2. rewrite E3. split.
  - intros [Q|(M & t & Q)]; [left; now rewrite Q|]. destruct (Z_le_dec 16384 (zlen f1)).
    + right. split; [|exists t; rewrite <- (ztake_zdrop 16384 f2), Q, <- E3; rewrite app_assoc, ztake_zdrop; reflexivity]. rewrite zlen_zdrop in M by lia. rewrite <- Zminus_mod_idemp_r in M. change (16384 mod 16384) with 0 in M. now rewrite Z.sub_0_r in M.
    + rewrite (zdrop_all 16384 f2) by lia. rewrite (zdrop_all 16384 f1) by lia. auto.
  - intros [Q|(M & t & Q)]; [left; now apply app_inv_head in Q|]. apply Z.mod_divide in M as [k M]; [|lia]. assert (16384 <= zlen f1) by lia. right. split.
    + rewrite zlen_zdrop by lia. rewrite M. replace (k * 16384 - 16384) with ((k - 1) * 16384) by lia. apply Z.mod_mul. lia.
    + exists t. rewrite Q. apply zdrop_app1. lia.
Qed.
Lemma compare_files_ok f1 f2 : zlen f1 = zlen f2 -> compare_files f1 f2 = Ret (if list_eq_dec Z.eq_dec f1 f2 then 0 else 1).
Proof.
  intros L. destruct (compare_ok (S (length f1)) f1 f2 ltac:(lia)) as (r & E & R & I). unfold compare_files. rewrite E. f_equal. destruct (list_eq_dec Z.eq_dec f1 f2) as [Q|Q]; [tauto|]. destruct R as [->| ->]; [|reflexivity]. destruct I as [I _]. destruct (I eq_refl) as [X|(_ & t & ->)]; [congruence|]. exfalso. apply Q. rewrite zlen_app in L. assert (t = []) as -> by (apply zlen_0; lia). now rewrite app_nil_r.
Qed.
Lemma full_names_ok d1 d2 f : d1 <> [] -> d2 <> [] -> (znth 0 d1 (zlen d1 - 1) = 47 <-> znth 0 d2 (zlen d2 - 1) = 47) -> full_names d1 d2 f = (in_dir d1 f, in_dir d2 f).
Proof.
  intros N1 N2 H. unfold full_names, in_dir, endswithchar. destruct d1 as [|x d1]; [congruence|]. replace (zlen (x :: d1) =? 0) with false by (rewrite zlen_cons; pose proof (zlen_nonneg d1); lia).
  destruct (Z.eqb_spec (znth 0 (x :: d1) (zlen (x :: d1) - 1)) 47) as [E|E]; destruct (Z.eqb_spec (znth 0 d2 (zlen d2 - 1)) 47) as [E'|E']; try tauto; reflexivity.
Qed.
Section Tree.
Variables (ls : list Z -> Z * list (list Z)) (size : list Z -> Z) (content : list Z -> list Z) (mode : Z).
Lemma process_ret fuel : forall d1 d2 ps r, process_path ls size content mode fuel d1 d2 = Ret (ps, Some r) -> r <> 0.
Proof.
  induction fuel as [|fuel IH]; intros d1 d2 ps r E; [discriminate|]. cbn [process_path] in E. destruct (ls d1) as [r1 fl1]. destruct (Z.eqb_spec r1 0); cbn [negb] in E; [|congruence]. destruct (ls d2) as [r2 fl2]. destruct (Z.eqb_spec r2 0); cbn [negb] in E; [|congruence].
  revert ps E. induction fl1 as [|f fs IHf]; intros ps E; [discriminate|]. destruct (existsb _ fl2); cbn [negb] in E; [|now apply (IHf ps)]. destruct (full_names d1 d2 f) as [n1 n2]. destruct (endswithchar f 47).
  - destruct (process_path _ _ _ _ fuel n1 n2) as [[qs [r'|]]| |]; try discriminate E. cbn [bind] in E. destruct (Z.eqb_spec r' 0); cbn [negb] in E; [|congruence].
    match type of E with bind ?l _ = _ => destruct l as [[qs' r'']| |] eqn:L end; try discriminate E. cbn [bind] in E. injection E as <- ->. eapply IHf. reflexivity.
  - match type of E with bind ?p _ = _ => destruct p as [b| |] end; try discriminate E. cbn [bind] in E. match type of E with bind ?l _ = _ => destruct l as [[qs' r'']| |] eqn:L end; try discriminate E. cbn [bind] in E. injection E as <- ->. eapply IHf. reflexivity.
Qed.
Lemma process_flat fuel d1 d2 fl1 fl2 : ls d1 = (0, fl1) -> ls d2 = (0, fl2) -> d1 <> [] -> d2 <> [] -> (znth 0 d1 (zlen d1 - 1) = 47 <-> znth 0 d2 (zlen d2 - 1) = 47) ->
  mode = 0 \/ mode = 1 -> (forall p, size p = zlen (content p)) -> (forall f, In f fl1 -> In f fl2 -> f <> [] -> znth 0 f (zlen f - 1) <> 47) ->
  process_path ls size content mode (S fuel) d1 d2 =
  Ret (map (in_dir d1) (filter (fun f => existsb (fun g => if list_eq_dec Z.eq_dec g f then true else false) fl2 &&
         eqb (mode =? 0) (if list_eq_dec Z.eq_dec (content (in_dir d1 f)) (content (in_dir d2 f)) then true else false)) fl1), None).
Proof.
  intros E1 E2 N1 N2 H M Sz D. cbn [process_path]. rewrite E1, E2. cbn [Z.eqb negb]. clear E1. induction fl1 as [|f fs IH]; [reflexivity|]. cbn [filter]. destruct (existsb _ fl2) eqn:X; cbn [negb andb].
  - rewrite full_names_ok by auto. apply existsb_exists in X as (g & G & X). destruct (list_eq_dec Z.eq_dec g f) as [->|]; [|discriminate]. assert (endswithchar f 47 = false) as ->.
    { unfold endswithchar. destruct (zlen f =? 0) eqn:Z0; [reflexivity|]. apply Z.eqb_neq. apply D; [left; reflexivity|exact G|]. intros ->. discriminate. }
    rewrite IH by (intros; apply D; [right|..]; auto). clear IH. rewrite !Sz.
    destruct (Z.eqb_spec (zlen (content (in_dir d1 f))) (zlen (content (in_dir d2 f)))) as [L|L]; cbn [negb bind].
    + rewrite compare_files_ok by exact L. cbn [bind]. destruct (list_eq_dec Z.eq_dec _ _); destruct M as [-> | ->]; reflexivity.
    + destruct (list_eq_dec Z.eq_dec _ _) as [Q|_]; [now rewrite Q in L|]. destruct M as [-> | ->]; reflexivity.
  - apply IH. intros. apply D; [right|..]; auto.
Qed.
End Tree.
