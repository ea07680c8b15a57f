(** Property C117: normalizepath_cstr compiled with PSPLIKE_PATH.  A path is a drive name n,
    a colon and an absolute unix path; the output buffer o has strlen(path) + 1 bytes. *)
From Verif Require Import Base Bits Cstr M_stringptr M_filelib S_stringptr S_filelib P_filelib M_psp P_psp.

(** the drive is kept and the rest normalized, unless the rest is the root *)
Theorem c117_drive_partial : forall (n R post o g : list Z) fuel, ~ In 47 n -> nz (n ++ 58 :: 47 :: R) -> bytes R ->
  zlen o = zlen (n ++ 58 :: 47 :: R) + 1 -> zlen o + zlen g < 2 ^ 63 -> (length (n ++ 58%Z :: 47%Z :: R) < fuel)%nat ->
  forall r, normal (47 :: R) = Some r -> r <> [47] ->
  exists k, normalizepath_psp fuel ((n ++ 58 :: 47 :: R) ++ 0 :: post) (o ++ g) = Ret (Some ((n ++ 58 :: r) ++ 0 :: k ++ g)).
Proof.
  intros n R post o g fuel N Zn B L G F r E X. pose proof (psp_ok n R post o g fuel N) as H. rewrite <- !app_assoc in H. cbn [app] in H.
  specialize (H Zn ltac:(apply bytes_cons; split; [unfold byte; lia|exact B]) L G F). rewrite E, (is_false r [47]) in H by exact X. destruct H as (k & H). exists k. rewrite <- !app_assoc. cbn [app]. rewrite <- !app_assoc in H. cbn [app] in H. exact H.
Qed.
Print Assumptions c117_drive_partial.
(** the root of a drive loses its slash, and the result is a path the function rejects *)
Theorem c117_root_refuted : forall (n R post o g : list Z) fuel, ~ In 47 n -> nz (n ++ 58 :: 47 :: R) -> bytes R ->
  zlen o = zlen (n ++ 58 :: 47 :: R) + 1 -> zlen o + zlen g < 2 ^ 63 -> (length (n ++ 58%Z :: 47%Z :: R) < fuel)%nat ->
  normal (47 :: R) = Some [47] ->
  (exists k, normalizepath_psp fuel ((n ++ 58 :: 47 :: R) ++ 0 :: post) (o ++ g) = Ret (Some ((n ++ [58]) ++ 0 :: k ++ g))) /\
  forall post o' g', zlen o' = zlen (n ++ [58]) + 1 -> normalizepath_psp fuel ((n ++ [58]) ++ 0 :: post) (o' ++ g') = Ret None.
Proof.
  intros n R post o g fuel N Zn B L G F E. split.
  - pose proof (psp_ok n R post o g fuel N) as H. rewrite <- !app_assoc in H. cbn [app] in H.
    specialize (H Zn ltac:(apply bytes_cons; split; [unfold byte; lia|exact B]) L G F). rewrite E in H. change (is [47] [47]) with true in H. cbv iota in H. destruct H as (k & H). exists k. rewrite <- !app_assoc. cbn [app]. rewrite <- !app_assoc in H. cbn [app] in H. exact H.
  - intros post' o' g' L'. apply no_drive; [|apply Forall_app in Zn as [Z1 _]; apply Forall_app; split; [exact Z1|constructor; [lia|constructor]]|exact L'|].
    + intros H. apply in_app_or in H as [H|[H|[]]]; [auto|discriminate].
    + revert F. rewrite !app_length. cbn [length]. lia.
Qed.
Print Assumptions c117_root_refuted.
(** refused: a path above the root, a drive name without colon, no slash at all *)
Theorem c117_refused : forall (n R post o g : list Z) fuel, ~ In 47 n -> nz n -> nz R -> bytes R -> zlen o + zlen g < 2 ^ 63 ->
  (normal (47 :: R) = None -> zlen o = zlen (n ++ 58 :: 47 :: R) + 1 -> (length (n ++ 58%Z :: 47%Z :: R) < fuel)%nat ->
   normalizepath_psp fuel ((n ++ 58 :: 47 :: R) ++ 0 :: post) (o ++ g) = Ret None) /\
  (forall m x, n = m ++ [x] -> x <> 58 -> zlen o = zlen (n ++ 47 :: R) + 1 -> (length (n ++ 47%Z :: R) < fuel)%nat ->
   normalizepath_psp fuel ((n ++ 47 :: R) ++ 0 :: post) (o ++ g) = Ret None) /\
  (zlen o = zlen n + 1 -> (length n < fuel)%nat -> normalizepath_psp fuel (n ++ 0 :: post) (o ++ g) = Ret None).
Proof.
  intros n R post o g fuel N Zn ZR B G. split; [|split].
  - intros E L F. pose proof (psp_ok n R post o g fuel N) as H. rewrite <- !app_assoc in H. cbn [app] in H.
    specialize (H ltac:(apply Forall_app; split; [exact Zn|constructor; [lia|constructor; [lia|exact ZR]]]) ltac:(apply bytes_cons; split; [unfold byte; lia|exact B]) L G F).
    rewrite E in H. rewrite <- !app_assoc. cbn [app]. exact H.
  - intros m x -> X L F. apply bad_drive; auto. apply Forall_app. split; [exact Zn|constructor; [lia|exact ZR]].
  - intros L F. now apply no_drive.
Qed.
Print Assumptions c117_refused.
(** without a drive: like normalizepath_cstr without PSPLIKE_PATH *)
Theorem c117_no_drive : forall (t post o g : list Z) fuel, nz t -> bytes t -> (exists R, t = 47 :: R) -> zlen o = zlen t + 1 -> zlen o + zlen g < 2 ^ 63 -> (length t < fuel)%nat ->
  match normal t with
  | None => normalizepath_psp fuel (t ++ 0 :: post) (o ++ g) = Ret None
  | Some r => exists k, normalizepath_psp fuel (t ++ 0 :: post) (o ++ g) = Ret (Some (r ++ 0 :: k ++ g)) /\ zlen (r ++ k) = zlen t
  end.
Proof. intros t post o g fuel Zn B (R & ->) L G F. now apply psp_unix. Qed.
Print Assumptions c117_no_drive.
(** "ms0:/PSP/./x/../GAME/" -> "ms0:/PSP/GAME", "ms0:/a/.." -> "ms0:" *)
Example c117_ex :
  normalizepath_psp 40 [109; 115; 48; 58; 47; 80; 83; 80; 47; 46; 47; 120; 47; 46; 46; 47; 71; 65; 77; 69; 47; 0] (zrepeat 7 22) =
    Ret (Some [109; 115; 48; 58; 47; 80; 83; 80; 47; 71; 65; 77; 69; 0; 7; 7; 7; 7; 7; 7; 7; 7]) /\
  normalizepath_psp 40 [109; 115; 48; 58; 47; 97; 47; 46; 46; 0] (zrepeat 7 10) = Ret (Some [109; 115; 48; 58; 0; 97; 47; 7; 7; 7]) /\
  normalizepath_psp 40 [109; 115; 48; 58; 0] (zrepeat 7 5) = Ret None /\ normalizepath_psp 40 [97; 47; 98; 0] (zrepeat 7 4) = Ret None.
Proof. repeat split; vm_compute; reflexivity. Qed.
