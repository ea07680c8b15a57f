(** C95: what fileparser_readline_userbuf gives for lines that arrive in any number of pieces. *)
From Verif Require Import Base M_fileparser S_fileparser P_fileparser S_fpshort M_fpshort T_fpshort.

(** ---------- spec ---------- *)
(** a part of the file as the reads deliver it: the line in pieces, of which only the last comes with the line feed,
    and the bytes behind the line feed that are skipped, one for each earlier piece; room: what the last read may deliver *)
Record seg := Seg { pieces : list (list Z); last_piece : list Z; room : Z; skipped : list Z }.
Definition text (s : seg) : list Z := concat (pieces s) ++ last_piece s ++ 10 :: skipped s.
Definition short (n : Z) (c : list Z) : Prop := no_lf c /\ c <> [] /\ zlen c < n.
Definition delivered (n : Z) (s : seg) : Prop :=
  Forall (short n) (pieces s) /\ no_lf (last_piece s) /\ zlen (last_piece s) < n /\ zlen (last_piece s) < room s /\ zlen (skipped s) = zlen (pieces s).
Definition reads (s : seg) : list Z := map zlen (pieces s) ++ [room s].
Definition seen (s : seg) : list (Z * list Z) := map got (pieces s) ++ [got (last_piece s)].

(** ---------- proof ---------- *)
Lemma pieces_ok : forall cs p a r b g n ks, ffd p <> 0 -> fcont p = a ++ concat cs ++ r -> foff p = zlen a -> 0 <= fpos p -> fpos p + zlen (concat cs) + zlen cs < 2 ^ 64 ->
  Forall (short n) cs -> zlen b = n ->
  exists b' l, zlen b' = n /\ calls_short (map zlen cs ++ ks) p (b ++ g) n =
    let* os := calls_short ks (mkFp (fpos p + zlen (concat cs) + zlen cs) l (ffd p) (fcont p) (zlen a + zlen (concat cs))) (b' ++ g) n in Ret (map got cs ++ os).
Proof.
  induction cs as [|c cs IH]; intros p a r b g n ks Hfd Ea Eo P0 P1 F Lb.
  - exists b, (flen p). split; [auto|]. cbn [map app concat]. change (zlen (@nil Z)) with 0. change (zlen (@nil (list Z))) with 0. rewrite !Z.add_0_r, <- Eo. destruct p as [q1 q2 q3 q4 q5]. cbn [fpos flen ffd fcont foff].
    now destruct (calls_short ks _ _ _).
  - apply Forall_cons_iff in F as [(Nc & Ne & Lc) F]. cbn [concat] in Ea, P1. revert P1. zl. intros P1. zpos. cbn [map app calls_short].
    destruct (short_part (zlen c) p a c (concat cs ++ r) b g n) as (b1 & E1 & L1 & T1); auto; try lia. { rewrite Ea. now rewrite <- app_assoc. }
    rewrite E1. cbn [bind Z.eqb flen ffd fcont foff fpos]. rewrite (line_seen c b1 g n L1 Lc T1). cbn [bind].
    destruct (IH (mkFp (fpos p + zlen c + 1) (zlen c) (ffd p) (fcont p) (foff p + zlen c)) (a ++ c) r b1 g n ks) as (b' & l & Lb' & E); cbn [ffd fcont foff fpos]; auto; try (zl; lia).
    { rewrite Ea. now rewrite <- !app_assoc. }
    exists b', l. split; [auto|]. cbn [ffd fcont foff fpos] in E. rewrite E.
    match goal with |- context [calls_short ks ?s _ _] => match goal with |- _ = bind (calls_short ks ?s2 _ _) _ => replace s2 with s by (cbn [concat]; f_equal; zl; lia) end end.
    destruct (calls_short ks _ _ _) as [os| |]; reflexivity.
Qed.
Lemma segs_ok : forall ss tail k2 p a b g n, ffd p <> 0 -> fcont p = a ++ concat (map text ss) ++ concat tail -> foff p = zlen a -> fpos p = zlen a -> zlen (fcont p) < 2 ^ 62 ->
  zlen b = n -> 0 <= n -> Forall (delivered n) ss -> Forall (short n) tail -> Forall (fun k => 0 <= k) k2 ->
  calls_short (concat (map reads ss) ++ map zlen tail ++ k2) p (b ++ g) n = Ret (concat (map seen ss) ++ map got tail ++ repeat eof (length k2)).
Proof.
  assert (CS : forall n cs, Forall (short n) cs -> zlen cs <= zlen (concat cs)).
  { intros n cs F. induction F as [|c cs (_ & N & _) F IH]; cbn [concat]; zl; [lia|]. assert (0 < zlen c) by (destruct c; [congruence|zl; zpos; lia]). lia. }
  induction ss as [|s ss IH]; intros tail k2 p a b g n Hfd Ea Eo Ep Lc Lb Hn F FT K2.
  - cbn [map concat app] in *. pose proof (CS _ _ FT). rewrite Ea in Lc. revert Lc. zl. intros Lc. zpos.
    destruct (pieces_ok tail p a [] b g n k2) as (b' & l & Lb' & E); auto; try lia. { now rewrite app_nil_r. }
    rewrite E. rewrite eofs; [reflexivity|exact Hfd| |lia|exact K2]. cbn [foff fcont]. rewrite Ea. zl. lia.
  - apply Forall_cons_iff in F as [(Fp & Nl & Ln & Lr & Ls) F]. cbn [map concat] in *. destruct s as [cs l k sk]. cbn [pieces last_piece room skipped] in *.
    change (text (Seg cs l k sk)) with (concat cs ++ l ++ 10 :: sk) in Ea. change (reads (Seg cs l k sk)) with (map zlen cs ++ [k]). change (seen (Seg cs l k sk)) with (map got cs ++ [got l]).
    pose proof (CS _ _ Fp). pose proof Lc as Lc'. rewrite Ea in Lc'. revert Lc'. zl. intros Lc'. zpos. rewrite <- !app_assoc.
    destruct (pieces_ok cs p a (l ++ 10 :: sk ++ concat (map text ss) ++ concat tail) b g n ([k] ++ concat (map reads ss) ++ map zlen tail ++ k2)) as (b1 & l1 & Lb1 & E); auto; try lia.
    { rewrite Ea, <- !app_assoc. cbn [app]. rewrite <- ?app_assoc. reflexivity. }
    rewrite E. clear E. cbn [app calls_short].
    destruct (short_lf k (mkFp (fpos p + zlen (concat cs) + zlen cs) l1 (ffd p) (fcont p) (zlen a + zlen (concat cs))) (a ++ concat cs) l (sk ++ concat (map text ss) ++ concat tail) b1 g n) as (b2 & E2 & L2 & T2);
      cbn [ffd fcont foff fpos]; auto; try (zl; lia).
    { rewrite Ea, <- !app_assoc. cbn [app]. rewrite <- ?app_assoc. reflexivity. }
    rewrite E2. cbn [bind Z.eqb flen ffd fcont foff fpos]. rewrite (line_seen l b2 g n L2 Ln T2). cbn [bind].
    rewrite (IH tail k2 _ (a ++ concat cs ++ l ++ 10 :: sk) b2 g n); cbn [ffd fcont foff fpos]; auto.
    + rewrite Ea. rewrite <- !app_assoc. cbn [app]. rewrite <- ?app_assoc. reflexivity.
    + zl. lia.
    + zl. lia.
Qed.

(** every piece is taken for a line, and behind each line as many bytes are lost as it had earlier pieces; tail: the
    pieces of a last line without line feed *)
Theorem c95_pieces : forall fd junk ss tail k2 b g n, fd <> 0 -> let content := concat (map text ss) ++ concat tail in zlen content < 2 ^ 62 -> zlen b = n -> 0 <= n ->
  Forall (delivered n) ss -> Forall (short n) tail -> Forall (fun k => 0 <= k) k2 ->
  calls_short (concat (map reads ss) ++ map zlen tail ++ k2) (fileparser_open fd junk content) (b ++ g) n = Ret (concat (map seen ss) ++ map got tail ++ repeat eof (length k2)).
Proof. intros. apply (segs_ok ss tail k2 _ []); auto. Qed.
Print Assumptions c95_pieces.

(** whatever the reads deliver, no access leaves the buffer *)
Lemma zwrite_len (b : list Z) i v : 0 <= i < zlen b -> exists b', zwrite b i v = Ret b' /\ zlen b' = zlen b.
Proof. intros H. rewrite zwrite_ok by auto. eexists. split; [reflexivity|]. zl. rewrite zlen_ztake, zlen_zdrop by lia. lia. Qed.
Lemma find_lf_bound : forall m buf i, 0 <= i -> i + Z.of_nat m <= zlen buf -> exists f, find_lf m buf i = Ret f /\ match f with Some j => i <= j < i + Z.of_nat m | None => True end.
Proof.
  induction m as [|m IH]; intros buf i Hi L; [exists None; auto|]. cbn [find_lf]. rewrite (zread_ok 0) by lia. cbn [bind]. destruct (_ =? 10); [exists (Some i); split; [auto|lia]|].
  destruct (IH buf (i + 1)) as (f & E & H); [lia|lia|]. exists f. split; [auto|]. destruct f; [lia|auto].
Qed.
Lemma one_safe k p buf n : 0 <= n <= zlen buf -> 0 <= k -> exists r p' buf', readline_short k p buf n = Ret (r, p', buf') /\ zlen buf' = zlen buf /\ (r = 0 -> 0 <= flen p' < n).
Proof.
  intros Hn Hk. unfold readline_short, sys_read_short. destruct (_ =? 0); [exists (-1), p, buf; split; [auto|]; split; [auto|discriminate]|].
  set (d := ztake _ _). assert (Ld : 0 <= zlen d <= n). { unfold d. split; [apply zlen_nonneg|]. rewrite zlen_ztake_min by lia. lia. }
  destruct (zsplit (zlen d) buf) as (b1 & b2 & -> & L1); [lia|]. pose proof (zwrites_at [] b1 b2 d 0 eq_refl L1) as W. cbn [app] in W. rewrite W. cbn [bind].
  destruct (Z.eqb_spec (zlen d) 0) as [Z0|Z0]; [do 3 eexists; split; [reflexivity|]; split; [zl; lia|discriminate]|].
  destruct (find_lf_bound (Z.to_nat (zlen d)) (d ++ b2) 0) as (f & E & H); [lia|zl; zpos; lia|]. rewrite E. cbn [bind fpos flen ffd fcont foff set_off]. revert Hn. zl. intros Hn. destruct f as [i|].
  - destruct (zwrite_len (d ++ b2) i 0) as (b3 & E3 & L3); [zl; lia|]. rewrite E3. cbn [bind seek_ret]. do 3 eexists. split; [reflexivity|]. split; [rewrite L3; zl; lia|]. intros _. cbn [set_off flen]. lia.
  - destruct (Z.ltb_spec (zlen d) n) as [G|G].
    + destruct (zwrite_len (d ++ b2) (zlen d) 0) as (b3 & E3 & L3); [zl; lia|]. rewrite E3. cbn [bind]. do 3 eexists. split; [reflexivity|]. split; [rewrite L3; zl; lia|]. intros _. cbn [flen]. lia.
    + cbn [seek_ret]. do 3 eexists. split; [reflexivity|]. split; [zl; lia|discriminate].
Qed.
Theorem c95_safe : forall ks p buf n, 0 <= n <= zlen buf -> Forall (fun k => 0 <= k) ks -> exists os, calls_short ks p buf n = Ret os /\ length os = length ks.
Proof.
  induction ks as [|k ks IH]; intros p buf n Hn F; [exists []; auto|]. apply Forall_cons_iff in F as [Hk F]. cbn [calls_short]. destruct (one_safe k p buf n Hn Hk) as (r & p' & buf' & E & L & R). rewrite E. cbn [bind].
  destruct (Z.eqb_spec r 0) as [Z0|Z0].
  - specialize (R Z0). destruct (zsplit (flen p' + 1) buf') as (x & y & -> & Lx); [lia|]. pose proof (zreads_at [] x y 0 (flen p' + 1) eq_refl ltac:(lia)) as W. cbn [app] in W. rewrite W. cbn [bind].
    destruct (IH p' (x ++ y) n) as (os & E' & L'); [lia|auto|]. rewrite E'. cbn [bind]. eexists. split; [reflexivity|]. cbn [length]. lia.
  - cbn [bind]. destruct (IH p' buf' n) as (os & E' & L'); [lia|auto|]. rewrite E'. cbn [bind]. eexists. split; [reflexivity|]. cbn [length]. lia.
Qed.
Print Assumptions c95_safe.
(** "abc" in three pieces: two bytes behind its line feed are lost *)
Example c95_pieces_ex : calls_short [1; 1; 9; 1; 9; 9] (fileparser_open 3 77 [97; 98; 99; 10; 49; 50; 100; 101; 10; 51; 102]) (repeat 7 8) 8 = Ret [got [97]; got [98]; got [99]; got [100]; got [101]; got [102]].
Proof. vm_compute. reflexivity. Qed.
