(** C123: ini files where memory for the list of lines runs out. *)
From Verif Require Import Base M_stringptr D_stringptr S_stringptr M_splmem S_splmem P_splmem T_splmem M_spfile P_spfile M_ini S_ini M_iniuse S_iniuse S_ininext M_inimem S_inimem P_inimem.

(** C123: for every text, name and key: the value is that of a file without the lost lines *)
Theorem c123_lookup sc junk text t name nt key kt : holds text t -> bytes t -> zlen t < 2 ^ 62 -> holds name nt -> holds key kt ->
  exists ls ks, ls <> [] /\ join [10] ls = t /\ Forall (fun l => ~ In 10 l) ls /\ kept sc ls ks /\
  exists r, ini_lookup_mem (true :: sc) (Some junk) text name key = Ret r /\
  match look nt kt ks with
  | Some v => exists s, r = Some s /\ holds s v /\ zread (sb s) (so s + sz s) = Ret 0
  | None => r = None
  end.
Proof. exact (lookup_mem_ok sc junk text t name nt key kt). Qed.
Print Assumptions c123_lookup.
(** C123: and so are the values shown for the sections of one name *)
Theorem c123_sections sc junk rs content name nt key kt dest cbuf fuel : content <> [] -> bytes content -> zlen content < 2 ^ 62 -> Forall moves rs -> zlen content <= zlen rs ->
  holds name nt -> holds key kt -> zlen cbuf = 32 -> zlen dest = 4096 -> zlen content + 2 <= Z.of_nat fuel ->
  exists ls ks, ls <> [] /\ join [10] ls = content /\ Forall (fun l => ~ In 10 l) ls /\ kept sc ls ks /\
  next_main_mem fuel (true :: sc) (zlen content) true (Some junk) rs content name key dest cbuf =
    Ret (map (pair 1) (flat_map (fun s => shown (first_value kt (lines_of ks s))) (until_empty (sections nt 0 ks)))).
Proof. exact (next_mem_ok sc junk rs content name nt key kt dest cbuf fuel). Qed.
Print Assumptions c123_sections.
(** C123: a value among the first 16 k lines is found if the first k requests for room are granted, whatever happens to
    the others *)
Theorem c123_early k sc' nt kt ls ks v : kept (repeat true k ++ sc') ls ks -> look nt kt (ztake (16 * Z.of_nat k) ls) = Some v -> look nt kt ls = Some v /\ look nt kt ks = Some v.
Proof.
  intros K H. destruct (c119_kept _ _ _ K) as (_ & _ & R). destruct (R k sc' eq_refl) as (r & ->). split; [|now apply look_app].
  rewrite <- (ztake_zdrop (16 * Z.of_nat k) ls). now apply look_app.
Qed.
Print Assumptions c123_early.
(** the file "[a]", fifteen times "x=", then "[b]", "k=v"; asking section a for k *)
Definition c123_file : ini_data := [([97], repeat ([120], []) 15); ([98], [([107], [118])])].
Definition as_text (t : list Z) : sp := mkSp (t ++ [0]) 0 (zlen t).
Definition c123_ask (sc : list bool) (n k : list Z) : out (option (list Z)) :=
  let* r := ini_lookup_mem sc (Some (fun _ => 7)) (as_text (ini_text c123_file)) (as_text n) (as_text k) in
  match r with None => Ret None | Some s => let* t := zreads (sb s) (so s) (sz s) in Ret (Some t) end.
(** C123, refuted as "a value that is found is one of the file": if just the request of the second header fails, its
    entries are taken for those of the first section, and the second section is gone *)
Theorem c123_wrong_section_refuted :
  ini_value c123_file [97] [107] = None /\ ini_value c123_file [98] [107] = Some [118] /\
  c123_ask [true; true; true] [97] [107] = Ret None /\ c123_ask [true; true; true] [98] [107] = Ret (Some [118]) /\
  c123_ask [true; true; false; true] [97] [107] = Ret (Some [118]) /\ c123_ask [true; true; false; true] [98] [107] = Ret None.
Proof. repeat split; vm_compute; reflexivity. Qed.
Print Assumptions c123_wrong_section_refuted.
(** C123: in general: where the lines lost are those of one header, what follows belongs to the section before *)
Theorem c123_merged nt kt a n b c h v : header nt n = true -> Forall (fun l => header nt l = false) a -> Forall (fun l => opens l = false) b -> opens h = true ->
  first_value kt b = None -> first_value kt (body c) = Some v ->
  look nt kt (a ++ n :: b ++ h :: c) = None /\ look nt kt (a ++ n :: b ++ c) = Some v.
Proof.
  intros Hn Fa Fb Hh N V. rewrite !look_eq. assert (G : forall x, first_lines nt (a ++ n :: x) = Some (body x)) by (intros x; induction Fa as [|l a H F IH]; cbn [app first_lines]; [now rewrite Hn|now rewrite H]).
  assert (Bb : forall x, body (b ++ x) = b ++ body x) by (intros x; clear - Fb; induction Fb as [|l b H F IH]; cbn [app body]; [reflexivity|now rewrite H, IH]).
  rewrite !G, !Bb. cbn [body]. rewrite Hh, app_nil_r. split; [exact N|]. clear - N V. induction b as [|l b IH]; [exact V|]. cbn [app first_value] in *. destruct (value_in kt l); [discriminate|auto].
Qed.
Print Assumptions c123_merged.
(** C123, refuted: without memory for the list itself both programs read through NULL *)
Theorem c123_no_list_refuted fuel sc junk rs text t content name key dest cbuf : holds text t -> content <> [] -> zlen content < 2 ^ 62 -> Forall moves rs -> zlen content <= zlen rs ->
  ini_lookup_mem (false :: sc) (Some junk) text name key = UB /\ next_main_mem fuel (false :: sc) (zlen content) true (Some junk) rs content name key dest cbuf = UB.
Proof.
  intros Ht N L M R. split.
  - unfold ini_lookup_mem. destruct (P_stringptr.copy_ok junk text _ Ht) as (c & -> & _). reflexivity.
  - unfold next_main_mem. destruct (fromfile_all junk rs content N ltac:(lia) M R) as (c & -> & _). reflexivity.
Qed.
Print Assumptions c123_no_list_refuted.
(** the file above with the value missing; and shown: one line, or nothing *)
Example c123_ex : c123_ask [true; true; false] [98] [107] = Ret None /\ c123_ask [true; false] [97] [120] = Ret None /\
  (let run sc := next_main_mem 200 sc (zlen (ini_text c123_file)) true (Some (fun _ => 7)) (repeat (Xfer 100) 200) (ini_text c123_file) (as_text [97]) (as_text [107]) (zrepeat 1 4096) (zrepeat 2 32) in
   run [true; true; true] = Ret [] /\ run [true; true; false; true] = Ret [(1, shown_text ++ [118; 10])]).
Proof. repeat split; vm_compute; reflexivity. Qed.
