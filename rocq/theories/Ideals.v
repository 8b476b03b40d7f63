(** Ideals of an integral domain up to principal factors, and the ring A[Y]/(Y^2 - c).  Used by
    CoordRing.v and Weierstrass.v to prove that the addition law of the two curves is associative. *)
From Coq Require Import Ring.

(** ** The ring A[Y]/(Y^2 - c): [(p, q)] stands for p + q Y *)
Section Quadratic.
  Context (A : Type) (a0 a1 : A) (aadd amul asub : A -> A -> A) (aopp : A -> A).
  Context (Ath : ring_theory a0 a1 aadd amul asub aopp (@eq A)).
  Add Ring AR : Ath.
  Context (c : A).
  Definition quad := (A * A)%type.
  Definition quad0 : quad := (a0, a0).
  Definition quad1 : quad := (a1, a0).
  Definition quad_add (u v : quad) : quad := (aadd (fst u) (fst v), aadd (snd u) (snd v)).
  Definition quad_sub (u v : quad) : quad := (asub (fst u) (fst v), asub (snd u) (snd v)).
  Definition quad_opp (u : quad) : quad := (aopp (fst u), aopp (snd u)).
  Definition quad_mul (u v : quad) : quad :=
    (aadd (amul (fst u) (fst v)) (amul (amul (snd u) (snd v)) c), aadd (amul (fst u) (snd v)) (amul (snd u) (fst v))).
  Definition quad_in (p : A) : quad := (p, a0).
  Definition quad_y : quad := (a0, a1).
  Definition quad_conj (u : quad) : quad := (fst u, aopp (snd u)).
  Definition quad_norm (u : quad) : A := asub (amul (fst u) (fst u)) (amul (amul (snd u) (snd u)) c).

  Ltac quad := repeat match goal with u : quad |- _ => destruct u end;
    unfold quad0, quad1, quad_add, quad_sub, quad_opp, quad_mul, quad_in, quad_y, quad_conj, quad_norm; cbn [fst snd];
    try apply f_equal2; ring.
  Lemma quad_ring : ring_theory quad0 quad1 quad_add quad_mul quad_sub quad_opp (@eq quad).
  Proof. constructor; intros; quad. Qed.
  Lemma quad_in_add p q : quad_in (aadd p q) = quad_add (quad_in p) (quad_in q). Proof. quad. Qed.
  Lemma quad_in_sub p q : quad_in (asub p q) = quad_sub (quad_in p) (quad_in q). Proof. quad. Qed.
  Lemma quad_in_opp p : quad_in (aopp p) = quad_opp (quad_in p). Proof. quad. Qed.
  Lemma quad_in_mul p q : quad_in (amul p q) = quad_mul (quad_in p) (quad_in q). Proof. quad. Qed.
  Lemma quad_y_sq : quad_mul quad_y quad_y = quad_in c. Proof. quad. Qed.
  Lemma quad_split (u : quad) : u = quad_add (quad_in (fst u)) (quad_mul (quad_in (snd u)) quad_y). Proof. quad. Qed.
  Lemma quad_conj_mul (u : quad) : quad_mul u (quad_conj u) = quad_in (quad_norm u). Proof. quad. Qed.
  Lemma quad_norm_mul (u v : quad) : quad_norm (quad_mul u v) = amul (quad_norm u) (quad_norm v). Proof. quad. Qed.
  Lemma quad_norm_0 : quad_norm quad0 = a0. Proof. quad. Qed.
  Lemma quad_eval p q p' q' y :
    aadd (aadd (amul p p') (amul (amul q q') (amul y y))) (amul (aadd (amul p q') (amul q p')) y) =
    amul (aadd p (amul q y)) (aadd p' (amul q' y)).
  Proof. ring. Qed.
End Quadratic.

(** ** Ideals of a domain up to principal factors *)
Section Ideals.
  Context (R : Type) (r0 r1 : R) (radd rmul rsub : R -> R -> R) (ropp : R -> R).
  Context (Rth : ring_theory r0 r1 radd rmul rsub ropp (@eq R)).
  Add Ring RR : Rth.
  Notation "u +! v" := (radd u v) (at level 50, left associativity).
  Notation "u -! v" := (rsub u v) (at level 50, left associativity).
  Notation "u *! v" := (rmul u v) (at level 40, left associativity).

  Definition subset := R -> Prop.
  Definition same (I J : subset) := forall x, I x <-> J x.
  Definition ideal (I : subset) := I r0 /\ (forall x y, I x -> I y -> I (x +! y)) /\ (forall a x, I x -> I (a *! x)).
  Inductive prod (I J : subset) : subset :=
  | prod_nil : prod I J r0
  | prod_cons i j x : I i -> J j -> prod I J x -> prod I J (i *! j +! x).
  Definition scale (f : R) (I : subset) : subset := fun x => exists i, I i /\ x = f *! i.
  Definition equiv (I J : subset) := exists f g, f <> r0 /\ g <> r0 /\ same (scale f I) (scale g J).
  Definition whole : subset := fun _ => True.

  Lemma prod_one (I J : subset) i j : I i -> J j -> prod I J (i *! j).
  Proof. intros Hi Hj. replace (i *! j) with (i *! j +! r0) by ring. apply prod_cons; auto. apply prod_nil. Qed.
  Lemma prod_add I J x y : prod I J x -> prod I J y -> prod I J (x +! y).
  Proof.
    intros Hx Hy. induction Hx as [|i j z Hi Hj _ IH]; [replace (r0 +! y) with y by ring; assumption|].
    replace (i *! j +! z +! y) with (i *! j +! (z +! y)) by ring. apply prod_cons; assumption.
  Qed.
  Lemma prod_comm_le I J x : prod I J x -> prod J I x.
  Proof.
    induction 1 as [|i j z Hi Hj _ IH]; [apply prod_nil|].
    replace (i *! j) with (j *! i) by ring. apply prod_cons; assumption.
  Qed.
  Lemma prod_comm I J : same (prod I J) (prod J I). Proof. intros x; split; apply prod_comm_le. Qed.
  Lemma prod_mul I J a x : ideal I -> prod I J x -> prod I J (a *! x).
  Proof.
    intros [_ [_ HI]]. induction 1 as [|i j z Hi Hj _ IH]; [replace (a *! r0) with r0 by ring; apply prod_nil|].
    replace (a *! (i *! j +! z)) with ((a *! i) *! j +! a *! z) by ring. apply prod_cons; auto.
  Qed.
  Lemma prod_ideal I J : ideal I -> ideal (prod I J).
  Proof. intros HI. split; [apply prod_nil|split; intros; [apply prod_add|apply prod_mul]; assumption]. Qed.
  Lemma prod_mono (I J I' J' : subset) : (forall x, I x -> I' x) -> (forall x, J x -> J' x) -> forall x, prod I J x -> prod I' J' x.
  Proof. intros HI HJ x. induction 1 as [|i j z Hi Hj _ IH]; [apply prod_nil|apply prod_cons; auto]. Qed.
  Lemma prod_assoc_le I J K x : prod (prod I J) K x -> prod I (prod J K) x.
  Proof.
    induction 1 as [|u k z Hu Hk _ IH]; [apply prod_nil|]. apply prod_add; [|assumption]. clear IH z.
    induction Hu as [|i j z Hi Hj _ IH]; [replace (r0 *! k) with r0 by ring; apply prod_nil|].
    replace ((i *! j +! z) *! k) with (i *! (j *! k) +! z *! k) by ring. apply prod_cons; auto using prod_one.
  Qed.
  Lemma prod_assoc I J K : same (prod (prod I J) K) (prod I (prod J K)).
  Proof.
    intros x; split; [apply prod_assoc_le|]. intros H. apply prod_comm_le in H.
    apply (prod_mono _ _ (prod K J) I) in H; [|apply prod_comm_le|auto].
    apply prod_assoc_le, prod_comm_le in H. revert H. apply prod_mono; [apply prod_comm_le|auto].
  Qed.
  Lemma prod_scale f I J : same (prod (scale f I) J) (scale f (prod I J)).
  Proof.
    intros x; split.
    - induction 1 as [|i j z [i' [Hi ->]] Hj _ [z' [Hz ->]]]; [exists r0; split; [apply prod_nil|ring]|].
      exists (i' *! j +! z'). split; [apply prod_cons; assumption|ring].
    - intros [u [Hu ->]]. induction Hu as [|i j z Hi Hj _ IH]; [replace (f *! r0) with r0 by ring; apply prod_nil|].
      replace (f *! (i *! j +! z)) with ((f *! i) *! j +! f *! z) by ring. apply prod_cons; [exists i|..]; auto.
  Qed.
  Lemma scale_scale f g I : same (scale f (scale g I)) (scale (f *! g) I).
  Proof.
    intros x; split; [intros [y [[i [Hi ->]] ->]]; exists i; split; [assumption|ring]|].
    intros [i [Hi ->]]. exists (g *! i). split; [exists i; auto|ring].
  Qed.
  Lemma scale_same f I J : same I J -> same (scale f I) (scale f J).
  Proof. intros H x; split; intros [i [Hi ->]]; exists i; split; auto; apply H, Hi. Qed.
  Lemma same_trans I J K : same I J -> same J K -> same I K.
  Proof. intros H1 H2 x. rewrite (H1 x). apply H2. Qed.
  Lemma same_sym I J : same I J -> same J I. Proof. intros H x. symmetry. apply H. Qed.
  Lemma prod_same_l I I' J : same I I' -> same (prod I J) (prod I' J).
  Proof. intros H x; split; apply prod_mono; auto; intros y; apply H. Qed.
  Lemma prod_whole I : ideal I -> same (prod I whole) I.
  Proof.
    intros [I0 [Ia Im]] x; split.
    - induction 1 as [|i j z Hi _ _ IH]; [assumption|]. apply Ia; [|assumption].
      replace (i *! j) with (j *! i) by ring. apply Im, Hi.
    - intros H. replace x with (x *! r1) by ring. apply prod_one; [assumption|exact Logic.I].
  Qed.

  Hypothesis nontrivial : r1 <> r0.
  Hypothesis domain : forall u v, u *! v = r0 -> u <> r0 -> v = r0.
  Lemma cancel f u v : f <> r0 -> f *! u = f *! v -> u = v.
  Proof.
    intros Hf H. assert (E : f *! (u -! v) = r0) by (transitivity (f *! u -! f *! v); [ring|rewrite H; ring]).
    apply domain in E; [|assumption]. transitivity ((u -! v) +! v); [ring|rewrite E; ring].
  Qed.
  Lemma mul_nz u v : u <> r0 -> v <> r0 -> u *! v <> r0.
  Proof. intros Hu Hv E. apply Hv, (domain u); assumption. Qed.

  Lemma same_equiv I J : same I J -> equiv I J.
  Proof. intros H. exists r1, r1. split; [assumption|split; [assumption|apply scale_same, H]]. Qed.
  Lemma equiv_sym I J : equiv I J -> equiv J I.
  Proof. intros [f [g [Hf [Hg H]]]]. exists g, f. split; [assumption|split; [assumption|apply same_sym, H]]. Qed.
  Lemma equiv_trans I J K : equiv I J -> equiv J K -> equiv I K.
  Proof.
    intros [f [g [Hf [Hg H1]]]] [f' [g' [Hf' [Hg' H2]]]]. exists (f' *! f), (g *! g').
    split; [apply mul_nz; assumption|split; [apply mul_nz; assumption|]].
    eapply same_trans; [apply same_sym, scale_scale|]. eapply same_trans; [apply scale_same, H1|].
    eapply same_trans; [apply scale_scale|]. replace (f' *! g) with (g *! f') by ring.
    eapply same_trans; [apply same_sym, scale_scale|]. eapply same_trans; [apply scale_same, H2|]. apply scale_scale.
  Qed.
  Lemma equiv_prod_l I I' J : equiv I I' -> equiv (prod I J) (prod I' J).
  Proof.
    intros [f [g [Hf [Hg H]]]]. exists f, g. split; [assumption|split; [assumption|]].
    eapply same_trans; [apply same_sym, prod_scale|]. eapply same_trans; [apply prod_same_l, H|]. apply prod_scale.
  Qed.
  Lemma equiv_prod_r I J J' : equiv J J' -> equiv (prod I J) (prod I J').
  Proof.
    intros H. eapply equiv_trans; [apply same_equiv, prod_comm|].
    eapply equiv_trans; [apply equiv_prod_l, H|]. apply same_equiv, prod_comm.
  Qed.
  (** An ideal equivalent to the whole ring is generated by one of its elements. *)
  Lemma equiv_whole I : equiv I whole -> exists h, I h /\ forall i, I i -> exists u, i = h *! u.
  Proof.
    intros [f [g [Hf [Hg H]]]]. destruct (proj2 (H g)) as [h [Hh E]]; [exists r1; split; [exact Logic.I|ring]|].
    exists h. split; [assumption|]. intros i Hi. destruct (proj1 (H (f *! i))) as [u [_ Eu]]; [exists i; auto|].
    exists u. apply (cancel f); [assumption|]. rewrite Eu, E. ring.
  Qed.

  (** Three ideals cut out by a line: [A], [B], [C] vanish at the abscissae, [L] and [M] are the line
      and its reflection. *)
  Lemma line_ideals (I J S : subset) A B C L M :
    ideal I -> ideal J -> ideal S -> C <> r0 -> L <> r0 ->
    I A -> J B -> S C -> S M -> prod I J L ->
    (forall i, I i -> exists v w, i = A *! v +! L *! w) ->
    (forall j, J j -> exists v w, j = B *! v +! L *! w) ->
    (forall s, S s -> exists v w, s = C *! v +! M *! w) ->
    L *! M = A *! B *! C -> equiv (prod I J) S.
  Proof.
    intros HI HJ HS HC HL IA JB SC SM IJL gI gJ gS E. exists C, L. split; [assumption|split; [assumption|]].
    destruct HS as [S0 [Sa Sm]]. destruct HI as [I0 [Ia Im]]. intros x; split.
    - intros [y [Hy ->]]. induction Hy as [|i j z Hi Hj _ [s [Hs IH]]]; [exists r0; split; [assumption|ring]|].
      destruct (gI i Hi) as [v [w ->]], (gJ j Hj) as [v' [w' ->]].
      exists ((v *! v') *! M +! ((A *! v *! w' +! B *! v' *! w +! L *! w *! w') *! C +! s)). split.
      { apply Sa; [apply Sm, SM|]. apply Sa; [apply Sm, SC|assumption]. }
      transitivity ((A *! B *! C) *! (v *! v') +! L *! (A *! v *! w' +! B *! v' *! w +! L *! w *! w') *! C +! C *! z); [ring|].
      rewrite <- E, IH. ring.
    - intros [s [Hs ->]]. destruct (gS s Hs) as [v [w ->]].
      exists (v *! L +! (w *! A) *! B). split.
      { apply prod_add; [apply prod_mul; [split; [|split]; assumption|assumption]|apply prod_one; auto]. }
      transitivity (L *! C *! v +! (L *! M) *! w); [ring|]. rewrite E. ring.
  Qed.
  Lemma opposite_ideals (I J : subset) A L M D :
    ideal I -> A <> r0 ->
    (forall i, I i -> exists v w, i = A *! v +! L *! w) ->
    (forall j, J j -> exists v w, j = A *! v +! M *! w) ->
    L *! M = A *! D -> prod I J A -> equiv (prod I J) whole.
  Proof.
    intros HI HA gI gJ E H. exists r1, A. split; [assumption|split; [assumption|]]. intros x; split.
    - intros [y [Hy ->]]. induction Hy as [|i j z Hi Hj _ [s [_ IH]]]; [exists r0; split; [exact Logic.I|ring]|].
      destruct (gI i Hi) as [v [w ->]], (gJ j Hj) as [v' [w' ->]].
      exists (A *! v *! v' +! v *! M *! w' +! L *! w *! v' +! D *! w *! w' +! s). split; [exact Logic.I|].
      transitivity (A *! (A *! v *! v' +! v *! M *! w' +! L *! w *! v') +! (L *! M) *! w *! w' +! r1 *! z); [ring|].
      rewrite E, IH. ring.
    - intros [s [_ ->]]. exists (s *! A). split; [apply prod_mul; assumption|ring].
  Qed.
End Ideals.
