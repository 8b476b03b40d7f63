(** Proofs for C66. *)
From Coq Require Import Field Permutation.
From Verif Require Import Base Constants Group Field Curve PointModel EncodingModel Weierstrass CurveGroups CurveSpec.

Section Chord.
  Context (K : Type) (k0 k1 : K) (kadd kmul ksub : K -> K -> K) (kopp : K -> K) (kdiv : K -> K -> K) (kinv : K -> K).
  Context (keqb : K -> K -> bool) (b : K).
  Hypothesis Kfield : field_theory k0 k1 kadd kmul ksub kopp kdiv kinv (@eq K).
  Hypothesis keqb_spec : forall x y, keqb x y = true <-> x = y.
  Hypothesis two_nz : kadd k1 k1 <> k0.
  Add Field KF : Kfield.
  Notation "x +! y" := (kadd x y) (at level 50, left associativity).
  Notation "x *! y" := (kmul x y) (at level 40, left associativity).
  Notation "x -! y" := (ksub x y) (at level 50, left associativity).
  Notation on := (on_curve K kadd kmul keqb b).
  Notation add := (ec_add K k0 k1 kadd kmul ksub kdiv keqb).
  Notation chord := (chord_sum kadd kmul ksub kopp b).
  Let sub_0 := k_sub_0 K k0 k1 kadd kmul ksub kopp kdiv kinv Kfield.
  Let integral := k_integral K k0 k1 kadd kmul ksub kopp kdiv kinv Kfield.

  (** A line through two points, given by its coefficients. *)
  Lemma meets_coeffs l m x1 x2 x3 : meets kadd kmul ksub b l m x1 x2 x3 <->
    l *! l = x1 +! x2 +! x3 /\ kopp (l *! m +! l *! m) = x1 *! x2 +! x1 *! x3 +! x2 *! x3 /\ m *! m -! b = x1 *! x2 *! x3.
  Proof.
    unfold meets. split.
    - intros H. pose proof (H k0) as H0. pose proof (H k1) as H1. pose proof (H (kopp k1)) as H2.
      assert (C0 : m *! m -! b = x1 *! x2 *! x3).
      { apply sub_0. transitivity ((k0 -! x1) *! ((k0 -! x2) *! (k0 -! x3)) -! (k0 *! (k0 *! k0) +! b -! (l *! k0 +! m) *! (l *! k0 +! m))); [ring|]. rewrite H0. ring. }
      set (A := l *! l -! (x1 +! x2 +! x3)). set (B := kopp (l *! m +! l *! m) -! (x1 *! x2 +! x1 *! x3 +! x2 *! x3)). set (C := m *! m -! b -! x1 *! x2 *! x3).
      assert (EC : C = k0) by (unfold C; rewrite C0; ring).
      assert (E1 : B -! A -! C = k0).
      { transitivity (k1 *! (k1 *! k1) +! b -! (l *! k1 +! m) *! (l *! k1 +! m) -! (k1 -! x1) *! ((k1 -! x2) *! (k1 -! x3))); [unfold A, B, C; ring|]. rewrite H1. ring. }
      assert (E2 : kopp B -! A -! C = k0).
      { transitivity (kopp k1 *! (kopp k1 *! kopp k1) +! b -! (l *! kopp k1 +! m) *! (l *! kopp k1 +! m) -! (kopp k1 -! x1) *! ((kopp k1 -! x2) *! (kopp k1 -! x3))); [unfold A, B, C; ring|]. rewrite H2. ring. }
      assert (EB : B = k0). { apply (integral (k1 +! k1)); [|exact two_nz]. transitivity ((B -! A -! C) -! (kopp B -! A -! C)); [ring|]. rewrite E1, E2. ring. }
      assert (EA : A = k0). { transitivity (B -! C -! (B -! A -! C)); [ring|]. rewrite E1, EB, EC. ring. }
      split; [exact (sub_0 _ _ EA)|]. split; [exact (sub_0 _ _ EB)|exact C0].
    - intros (A & B & C) X. apply sub_0.
      transitivity (X *! X *! ((x1 +! x2 +! x3) -! l *! l) +! X *! (kopp (l *! m +! l *! m) -! (x1 *! x2 +! x1 *! x3 +! x2 *! x3)) +! (x1 *! x2 *! x3 -! (m *! m -! b))); [ring|].
      rewrite A, B, C. ring.
  Qed.
  Lemma neq_eqb x y : x <> y -> keqb x y = false.
  Proof. intros H. destruct (keqb x y) eqn:E; [apply keqb_spec in E; contradiction|reflexivity]. Qed.
  Lemma eq_eqb x : keqb x x = true. Proof. apply keqb_spec. reflexivity. Qed.
  Lemma half_zero y : y = kopp y -> y = k0.
  Proof. intros H. apply (integral (k1 +! k1)); [|exact two_nz]. transitivity (y +! y); [ring|]. rewrite H at 2. ring. Qed.
  Lemma square_cases y1 y2 : y1 *! y1 = y2 *! y2 -> y1 = y2 \/ y2 = kopp y1.
  Proof.
    intros H. destruct (keqb y1 y2) eqn:E; [left; apply keqb_spec, E|right].
    assert (N : y1 -! y2 <> k0) by (intros Z; apply sub_0 in Z; subst; rewrite eq_eqb in E; discriminate E).
    assert (S : y1 +! y2 = k0). { apply (integral (y1 -! y2)); [|exact N]. transitivity (y1 *! y1 -! y2 *! y2); [ring|]. rewrite H. ring. }
    apply sub_0. transitivity (y1 +! y2); [ring|exact S].
  Qed.
  (** The slope decides. *)
  Lemma slope_chord l x1 y1 x2 y2 : y1 *! y1 = x1 *! (x1 *! x1) +! b -> y2 = y1 +! l *! (x2 -! x1) ->
    (let x3 := (l *! l) -! x1 -! x2 in (k1 +! k1) *! (l *! (l *! x1 -! y1)) = x1 *! x2 +! x1 *! x3 +! x2 *! x3) ->
    exists m x3, y1 = l *! x1 +! m /\ y2 = l *! x2 +! m /\ meets kadd kmul ksub b l m x1 x2 x3 /\
      Some (slope_point K kmul ksub l x1 y1 x2) = Some (x3, kopp (l *! x3 +! m)).
  Proof.
    cbn zeta. intros H1 H2 Ha. exists (y1 -! l *! x1), (l *! l -! x1 -! x2). split; [ring|]. split; [rewrite H2; ring|]. split.
    - apply meets_coeffs. split; [ring|]. split; [rewrite <- Ha; ring|].
      set (x3 := l *! l -! x1 -! x2) in *. assert (Hb : b = y1 *! y1 -! x1 *! (x1 *! x1)) by (rewrite H1; ring). rewrite Hb. apply sub_0.
      set (e := (k1 +! k1) *! (l *! (l *! x1 -! y1)) -! (x1 *! x2 +! x1 *! x3 +! x2 *! x3)).
      assert (He : e = k0) by (unfold e; rewrite Ha; ring).
      transitivity (x1 *! e); [|rewrite He; ring]. unfold e, x3. ring.
    - unfold slope_point. cbn zeta. f_equal. f_equal. ring.
  Qed.
  Lemma add_chord P Q : on P = true -> on Q = true -> chord P Q (add P Q).
  Proof.
    destruct P as [[x1 y1]|]; [|reflexivity]. destruct Q as [[x2 y2]|]; [|reflexivity]. intros HP HQ. cbn [chord_sum ec_add].
    cbn [on_curve] in HP, HQ. apply keqb_spec in HP, HQ. destruct (keqb x1 x2) eqn:Ex.
    - apply keqb_spec in Ex. subst x2. destruct (keqb y1 y2) eqn:Ey.
      + apply keqb_spec in Ey. subst y2. cbn [ec_double]. destruct (keqb y1 k0) eqn:E0.
        * apply keqb_spec in E0. left. split; [reflexivity|]. split; [rewrite E0; ring|reflexivity].
        * right. assert (Hy : y1 <> k0) by (intros Z; subst; rewrite eq_eqb in E0; discriminate E0). split; [intros [_ Z]; exact (Hy (half_zero y1 Z))|].
          assert (H2y : y1 +! y1 <> k0) by (intros Z; apply Hy, (integral (k1 +! k1)); [rewrite <- Z; ring|assumption]).
          set (l := kdiv _ _). assert (Hl : l *! (y1 +! y1) = (k1 +! (k1 +! k1)) *! (x1 *! x1)) by (unfold l; field; assumption).
          exists l. apply slope_chord; [exact HP|ring|]. cbn zeta. apply sub_0.
          transitivity ((k1 +! (k1 +! k1)) *! (x1 *! x1) -! l *! (y1 +! y1)); [ring|]. rewrite Hl. ring.
      + left. split; [reflexivity|]. split; [|reflexivity]. destruct (square_cases y1 y2) as [->|H]; [rewrite HP, HQ; reflexivity| |exact H]. rewrite eq_eqb in Ey. discriminate Ey.
    - right. assert (Hx : x1 <> x2) by (intros ->; rewrite eq_eqb in Ex; discriminate Ex). split; [intros [Z _]; exact (Hx Z)|].
      assert (Hd : x2 -! x1 <> k0) by (intros Z; apply sub_0 in Z; symmetry in Z; exact (Hx Z)).
      set (l := kdiv _ _). assert (Hl : y2 = y1 +! l *! (x2 -! x1)) by (unfold l; field; assumption).
      exists l. apply slope_chord; [exact HP|exact Hl|]. cbn zeta. apply sub_0. apply (integral (x2 -! x1)); [|assumption].
      set (f := fun x => x *! (x *! x) +! b -! (y1 +! l *! (x -! x1)) *! (y1 +! l *! (x -! x1))).
      assert (F1 : f x1 = k0) by (unfold f; transitivity (x1 *! (x1 *! x1) +! b -! y1 *! y1); [ring|rewrite HP; ring]).
      assert (F2 : f x2 = k0) by (unfold f; rewrite <- Hl, HQ; ring).
      transitivity (f x2 -! f x1); [unfold f; ring|rewrite F1, F2; ring].
  Qed.
  (** The sum is unique. *)
  Lemma chord_unique P Q S S' : chord P Q S -> chord P Q S' -> S = S'.
  Proof.
    destruct P as [[x1 y1]|]; [|cbn [chord_sum]; congruence]. destruct Q as [[x2 y2]|]; [|cbn [chord_sum]; congruence]. cbn [chord_sum].
    intros [(E1 & E2 & ->)|(N & l & m & x3 & A1 & A2 & M & ->)] [(E1' & E2' & ->)|(N' & l' & m' & x3' & A1' & A2' & M' & ->)]; try tauto.
    apply meets_coeffs in M as (C1 & C2 & C3). apply meets_coeffs in M' as (D1 & D2 & D3).
    assert (El : l = l').
    { destruct (keqb x1 x2) eqn:Ex.
      - apply keqb_spec in Ex. rewrite <- Ex in *. clear Ex. assert (Ey : y2 = y1) by congruence. rewrite Ey in *. clear Ey.
        assert (Hy : y1 +! y1 <> k0). { intros Z. apply N. split; [reflexivity|]. apply sub_0. transitivity (y1 +! y1); [ring|exact Z]. }
        assert (L : forall l m x3, y1 = l *! x1 +! m -> l *! l = x1 +! x1 +! x3 -> kopp (l *! m +! l *! m) = x1 *! x1 +! x1 *! x3 +! x1 *! x3 -> l = kdiv ((k1 +! (k1 +! k1)) *! (x1 *! x1)) (y1 +! y1)).
        { intros l0 m0 x4 A B C. assert (Hm : m0 = y1 -! l0 *! x1) by (rewrite A; ring). assert (Hx : x4 = l0 *! l0 -! x1 -! x1) by (rewrite B; ring).
          assert (H : l0 *! (y1 +! y1) = (k1 +! (k1 +! k1)) *! (x1 *! x1)).
          { apply sub_0. transitivity ((x1 *! x1 +! x1 *! x4 +! x1 *! x4) -! kopp (l0 *! m0 +! l0 *! m0)); [rewrite Hm, Hx; ring|]. rewrite C. ring. }
          rewrite <- H. field. assumption. }
        rewrite (L l m x3), (L l' m' x3'); auto.
      - assert (Hd : x2 -! x1 <> k0) by (intros Z; apply sub_0 in Z; subst; rewrite eq_eqb in Ex; discriminate Ex).
        assert (L : forall l m, y1 = l *! x1 +! m -> y2 = l *! x2 +! m -> l = kdiv (y2 -! y1) (x2 -! x1)) by (intros l0 m0 E3 E4; rewrite E3, E4 at 1; field; exact Hd).
        rewrite (L l m), (L l' m'); auto. }
    subst l'. assert (m = m') as <-. { transitivity (y1 -! l *! x1); [rewrite A1|rewrite A1']; ring. }
    assert (x3 = x3') as <-; [|reflexivity]. transitivity (l *! l -! x1 -! x2); [rewrite C1; ring|rewrite D1; ring].
  Qed.
  Lemma add_iff P Q S : on P = true -> on Q = true -> (add P Q = S <-> chord P Q S).
  Proof.
    intros HP HQ. split; [intros <-; apply add_chord; assumption|]. intros H. exact (chord_unique P Q _ _ (add_chord P Q HP HQ) H).
  Qed.
End Chord.
Definition g1_chord := add_iff fq q0 q1 qadd qmul qsub qopp qdiv qinv qeqb G1_B fq_field qeqb_spec q_two.
Definition g2_chord := add_iff fq2 q2_0 q2_1 q2add q2mul q2sub q2opp q2div q2inv q2eqb TWIST_B fq2_field q2eqb_spec q2_two.

(** The group law, read off the group of the curve. *)
Section Law.
  Context (A : Type) (on : A -> bool) (zero : A) (add : A -> A -> A) (neg : A -> A) (G : grp) (of : A -> G) (to : G -> A).
  Context (T : forall P, on (to P) = true) (TO : forall P, on P = true -> to (of P) = P) (OT : forall P, of (to P) = P).
  Context (Z : to gz = zero) (AD : forall P Q, to (ga P Q) = add (to P) (to Q)) (NE : forall P, to (gn P) = neg (to P)).
  Lemma law : group_law on zero add neg.
  Proof.
    assert (X : forall P, on P = true -> exists Q, P = to Q) by (intros P H; exists (of P); symmetry; exact (TO P H)).
    split; [rewrite <- Z; apply T|]. repeat split.
    - intros P Q HP HQ. destruct (X P HP) as (P' & ->), (X Q HQ) as (Q' & ->). rewrite <- AD. apply T.
    - intros P HP. destruct (X P HP) as (P' & ->). rewrite <- NE. apply T.
    - destruct (X P H) as (P' & ->). rewrite <- Z, <- AD, ga_0_l. reflexivity.
    - destruct (X P H) as (P' & ->). rewrite <- Z, <- AD, ga_comm, ga_0_l. reflexivity.
    - destruct (X P H) as (P' & ->). rewrite <- Z, <- NE, <- AD, ga_comm, gn_l. reflexivity.
    - destruct (X P H) as (P' & ->). rewrite <- Z, <- NE, <- AD, gn_l. reflexivity.
    - intros P Q HP HQ. destruct (X P HP) as (P' & ->), (X Q HQ) as (Q' & ->). rewrite <- !AD, ga_comm. reflexivity.
    - intros P Q S HP HQ HS. destruct (X P HP) as (P' & ->), (X Q HQ) as (Q' & ->), (X S HS) as (S' & ->). rewrite <- !AD, ga_assoc. reflexivity.
  Qed.
  Context (sum : list A -> A) (SU : forall l, to (gsum l) = sum (map to l)).
  Lemma lift l : Forall (fun P => on P = true) l -> exists l', l = map to l'.
  Proof.
    induction 1 as [|P l H _ (l' & ->)]; [exists []; reflexivity|]. exists (of P :: l'). cbn [map]. rewrite TO by exact H. reflexivity.
  Qed.
  Lemma sums : forall l l', Forall (fun P => on P = true) l -> Forall (fun P => on P = true) l' ->
    sum (l ++ l') = add (sum l) (sum l') /\ (Permutation l l' -> sum l = sum l').
  Proof.
    intros l l' H H'. apply lift in H as (m & ->). apply lift in H' as (m' & ->). rewrite <- map_app, <- !SU, <- AD. split; [rewrite gsum_app; reflexivity|].
    intros HP. f_equal. apply gsum_perm. apply (Permutation_map of) in HP. rewrite !map_map in HP.
    rewrite !(map_ext _ _ OT), !map_id in HP. exact HP.
  Qed.
End Law.
Lemma g1_law : group_law on_g1 None g1_add g1_neg.
Proof. exact (law g1_point on_g1 None g1_add g1_neg g1_curve g1_of g1_to g1_to_on g1_to_of eq_refl g1_to_add (fun P => eq_refl)). Qed.
Lemma g2_law : group_law on_twist None g2_add g2_neg.
Proof. exact (law g2_point on_twist None g2_add g2_neg g2_curve g2_of g2_to g2_to_on g2_to_of eq_refl g2_to_add (fun P => eq_refl)). Qed.
Definition g1_sums := sums g1_point on_g1 g1_add g1_curve g1_of g1_to g1_to_of g1_of_to g1_to_add g1_sum g1_to_sum.
Definition g2_sums := sums g2_point on_twist g2_add g2_curve g2_of g2_to g2_to_of g2_of_to g2_to_add g2_sum g2_to_sum.
