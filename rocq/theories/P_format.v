(** Proofs about ulz_vsnprintf. *)
From Verif Require Import Base Bits Cstr S_num L_num M_str M_num P_num M_format S_format.

(** ** two runs with different outputs *)
Definition orel {A B} (R : A -> B -> Prop) (x : out A) (y : out B) : Prop :=
  match x, y with Ret a, Ret b => R a b | UB, UB => True | Fuel, Fuel => True | _, _ => False end.
Lemma orel_bind {A B C D} (P : A -> B -> Prop) (Q : C -> D -> Prop) x y f g :
  orel P x y -> (forall a b, P a b -> orel Q (f a) (g b)) -> orel Q (bind x f) (bind y g).
Proof. destruct x, y; cbn; intros H K; try easy. now apply K. Qed.
Lemma orel_same {A C D} (Q : C -> D -> Prop) (x : out A) f g : (forall a, orel Q (f a) (g a)) -> orel Q (bind x f) (bind x g).
Proof. intros H. destruct x; cbn; auto. Qed.
Section Sim.
Context {A B : Type} (e1 : A -> Z -> out A) (e2 : B -> Z -> out B) (R : A -> B -> Prop).
Hypothesis He : forall a b c, R a b -> orel R (e1 a c) (e2 b c).
Lemma strmove_sim fuel : forall ins pos a b, R a b -> orel R (strmove e1 fuel ins pos a) (strmove e2 fuel ins pos b).
Proof.
  induction fuel as [|fuel IH]; intros ins pos a b H; cbn [strmove]; [easy|]. apply orel_same. intros c. destruct (c =? 0); [exact H|].
  eapply orel_bind; [apply He; exact H|]. auto.
Qed.
Definition R2 {X} (x : X * A) (y : X * B) : Prop := fst x = fst y /\ R (snd x) (snd y).
Definition Ro {X} (x : option (X * A)) (y : option (X * B)) : Prop := match x, y with Some a, Some b => R2 a b | None, None => True | _, _ => False end.
Lemma nconv_sim inn base width nf cbuf a b : R a b -> orel Ro (nconv e1 inn base width nf cbuf a) (nconv e2 inn base width nf cbuf b).
Proof.
  intros H. unfold nconv. cbv zeta. apply orel_same. intros [[ins c]|]; [|exact I]. eapply orel_bind; [apply strmove_sim; exact H|]. intros a' b' H'. split; [reflexivity|exact H'].
Qed.
Lemma loop_sim fuel : forall fmt md p args w cbuf a b, R a b -> orel R2 (fmt_loop e1 fuel fmt md p args w cbuf a) (fmt_loop e2 fuel fmt md p args w cbuf b).
Proof.
  induction fuel as [|fuel IH]; intros fmt md p args w cbuf a b H; cbn [fmt_loop]; [easy|].
  assert (Fl : forall f : bool, orel R2 (Ret (f, a)) (Ret (f, b))) by (intros f; split; [reflexivity|exact H]).
  assert (Em : forall c md p args w cbuf, orel R2 (let* k := e1 a c in fmt_loop e1 fuel fmt md p args w cbuf k) (let* k := e2 b c in fmt_loop e2 fuel fmt md p args w cbuf k)).
  { intros. eapply orel_bind; [apply He; exact H|]. auto. }
  assert (St : forall s pos md p args w cbuf, orel R2 (let* k := strmove0 e1 s pos a in fmt_loop e1 fuel fmt md p args w cbuf k) (let* k := strmove0 e2 s pos b in fmt_loop e2 fuel fmt md p args w cbuf k)).
  { intros. eapply orel_bind; [apply strmove_sim; exact H|]. auto. }
  assert (Nc : forall inn base nf p args, orel R2
    (let* r := nconv e1 inn base w nf cbuf a in match r with None => Ret (true, a) | Some (cbuf, k) => fmt_loop e1 fuel fmt false (p + 1) args 0 cbuf k end)
    (let* r := nconv e2 inn base w nf cbuf b in match r with None => Ret (true, b) | Some (cbuf, k) => fmt_loop e2 fuel fmt false (p + 1) args 0 cbuf k end)).
  { intros. eapply orel_bind; [apply nconv_sim; exact H|]. intros [[c1 k1]|] [[c2 k2]|] X; try easy. destruct X as [E X]. cbn in E, X. subst c2. auto. }
  destruct md; cbn [negb]; apply orel_same; intros c; repeat match goal with
  | |- orel _ (if ?x then _ else _) (if ?x then _ else _) => destruct x
  | |- orel _ (Ret (_, a)) _ => apply Fl
  | |- orel _ (fmt_loop _ _ _ _ _ _ _ _ _) _ => apply IH; exact H
  | |- orel _ (bind (e1 _ _) _) _ => apply Em
  | |- orel _ (bind (strmove0 _ _ _ _) _) _ => apply St
  | |- orel _ (bind (nconv _ _ _ _ _ _ _) _) _ => apply Nc
  | |- orel _ (bind ?x _) (bind ?x _) => apply orel_same; intros ?
  | |- orel _ (let (_, _) := ?x in _) _ => destruct x
  | |- orel _ (match ?x with None => _ | Some _ => _ end) _ => destruct x
  end.
Qed.
End Sim.
(** ** the text, written nowhere *)
Definition collect (t : list Z) (c : Z) : out (list Z) := Ret (t ++ [c]).
(** what a sink for [size] bytes of d0 holds after the text t *)
Definition holds_text (d0 : option (list Z)) (size : Z) (t : list Z) (k : sink) : Prop :=
  match d0 with
  | None => k = mkSink None 0 (size - 1) (zlen t)
  | Some d => let t' := ztake (size - 1) t in k = mkSink (Some (t' ++ zdrop (zlen t') d)) (zlen t') (size - 1) (zlen t')
  end.
Lemma put_sim d0 size t k c : (match d0 with None => True | Some d => 1 <= size <= zlen d end) -> holds_text d0 size t k -> orel (holds_text d0 size) (collect t c) (put k c).
Proof.
  unfold holds_text, collect, put. destruct d0 as [d|]; intros S ->; cbn [dst o_ omax res orel].
  2: { f_equal. zl. lia. }
  pose proof (zlen_nonneg t). destruct (Z.ltb_spec (zlen (ztake (size - 1) t)) (size - 1)) as [Lt|Le].
  - assert (Ht : ztake (size - 1) t = t). { apply ztake_all. destruct (Z_le_dec (zlen t) (size - 1)); [assumption|]. rewrite zlen_ztake in Lt by lia. lia. }
    rewrite Ht in *. assert (Ht' : ztake (size - 1) (t ++ [c]) = t ++ [c]) by (apply ztake_all; zl; lia). rewrite Ht'.
    destruct (zdrop_cons_inv (zlen t) d ltac:(lia)) as (x & q & E & Eq). rewrite E. rewrite zwrite_at by reflexivity. cbn [bind orel]. f_equal.
    + f_equal. rewrite <- app_assoc. cbn [app]. rewrite Eq. do 3 f_equal. zl. lia.
    + zl. lia.
    + zl. lia.
  - assert (L2 : size - 1 <= zlen t). { destruct (Z_le_dec (size - 1) (zlen t)); [assumption|]. rewrite ztake_all in Le by lia. lia. }
    rewrite (ztake_app1 (size - 1) t [c]) by lia. reflexivity.
Qed.
Definition text_run (fmt : list Z) (args : list arg) (cbuf : list Z) : out (bool * list Z) :=
  fmt_loop collect (2 * length fmt + 2) fmt false 0 args 0 cbuf [].
Lemma run_ok d0 size fmt args cbuf : (match d0 with None => True | Some d => 1 <= size <= zlen d end) ->
  ulz_vsnprintf d0 size fmt args cbuf =
  match text_run fmt args cbuf with
  | UB => UB
  | Fuel => Fuel
  | Ret (failed, t) =>
      match d0 with
      | None => Ret (if failed then -1 else zlen t, None)
      | Some d => let t' := ztake (size - 1) t in
                  if failed then Ret (-1, Some (t' ++ zdrop (zlen t') d)) else Ret (zlen t', Some (t' ++ 0 :: zdrop (zlen t' + 1) d))
      end
  end.
Proof.
  intros Hs. unfold ulz_vsnprintf, text_run. set (k0 := mkSink d0 0 (size - 1) 0).
  assert (H0 : holds_text d0 size [] k0).
  { unfold holds_text, k0. destruct d0 as [d|]; [|reflexivity]. assert (E : ztake (size - 1) (@nil Z) = []) by (unfold ztake; apply firstn_nil). rewrite E. reflexivity. }
  pose proof (loop_sim collect put (holds_text d0 size) (fun t k c => put_sim d0 size t k c Hs) (2 * length fmt + 2) fmt false 0 args 0 cbuf [] k0 H0) as Q.
  destruct (fmt_loop collect _ _ _ _ _ _ _ _) as [[f t]| |]; destruct (fmt_loop put _ _ _ _ _ _ _ _) as [[f' k]| |]; cbn [orel] in Q; try easy.
  destruct Q as [E Q]. cbn in E, Q. subst f'. cbn [bind]. unfold holds_text in Q. destruct d0 as [d|]; cbv zeta in *; subst k; cbn [dst o_ res].
  - destruct f; [reflexivity|]. assert (Lt : zlen (ztake (size - 1) t) <= size - 1). { destruct (Z_le_dec (zlen t) (size - 1)); [rewrite ztake_all by lia; lia|rewrite zlen_ztake; lia]. }
    set (t' := ztake (size - 1) t) in *. pose proof (zlen_nonneg t') as P. destruct (zdrop_cons_inv (zlen t') d ltac:(lia)) as (x & q & E & Eq). rewrite E, zwrite_at by reflexivity. cbn [bind]. now rewrite Eq.
  - now destruct f.
Qed.
