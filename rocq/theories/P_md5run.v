(** Proofs about runs of md5 clients and md5str. *)
From Verif Require Import Base Bits M_hex S_hex P_hex M_md5 S_hash S_md5 D_md5 P_crc32 P_hash P_md5.
Lemma calls_ok : forall calls full r c, Forall call_ok calls -> rep full r c ->
  md5_calls c calls = Ret (map (fun s => md5 (fst s) ++ zdrop 16 (snd s)) (seen (full ++ r) calls)).
Proof.
  induction calls as [|[p l q|j d] calls IH]; intros full r c Fa R; [reflexivity| |]; inversion Fa as [|? ? Ok Fa']; subst; cbn [md5_calls seen].
  - destruct (md5_update_ok p l q full r c Ok R) as (f' & r' & c' & E & Ed & R'). rewrite E, bind_ret. rewrite (IH f' r' c' Fa' R'). rewrite <- app_assoc, Ed. reflexivity.
  - destruct Ok as [Lj Ld]. destruct (zsplit 16 d) as (u & v & -> & Lu); [lia|]. rewrite (md5_end_ok j full r c u v Lj R Lu), bind_ret. rewrite (IH full r c Fa' R), bind_ret.
    cbn [map fst snd]. rewrite <- Lu, zdrop_app_exact. reflexivity.
Qed.
Lemma run_ok junk calls : zlen junk = 64 -> Forall call_ok calls ->
  md5_run junk calls = Ret (map (fun s => md5 (fst s) ++ zdrop 16 (snd s)) (seen [] calls)).
Proof. intros L Fa. exact (calls_ok calls [] [] _ Fa (init_rep junk L)). Qed.
Lemma md5str_ok junk junk2 raw dst p l q : zlen junk = 64 -> zlen junk2 = 64 -> zlen raw = 16 -> 33 <= zlen dst -> bytes l ->
  md5str (S (length l)) junk junk2 raw dst (p ++ l ++ q) (zlen p) (zlen l) = Ret (hex_of (md5 l) ++ 0 :: zdrop 33 dst).
Proof.
  intros L1 L2 L3 L4 B. unfold md5str. cbv zeta. destruct (md5_update_ok p l q [] [] _ B (init_rep junk L1)) as (f' & r' & c' & E & Ed & R'). rewrite E, bind_ret.
  pose proof (md5_end_ok junk2 f' r' c' raw [] L2 R' L3) as En. rewrite !app_nil_r in En. rewrite En, bind_ret. rewrite <- Ed. cbn [app].
  pose proof (raw2hex_ok (md5 l) [] dst (md5_bytes l)) as X. rewrite md5_len, app_nil_r in X. apply X. lia.
Qed.
