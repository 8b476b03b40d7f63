(** Proofs for C80: the formulas. *)
From Coq Require Import Field.
From Verif Require Import Base Constants Group Field Curve EncodingModel Circuit CompleteModel CompleteSpec.

Section Formulas.
  Context (K : Type) (k0 k1 : K) (kadd kmul ksub : K -> K -> K) (kopp : K -> K) (kdiv : K -> K -> K) (kinv : K -> K) (keqb : K -> K -> bool) (b : K).
  Context (Kfield : field_theory k0 k1 kadd kmul ksub kopp kdiv kinv (@eq K)) (keqb_spec : forall x y, keqb x y = true <-> x = y).
  Context (two_nz : kadd k1 k1 <> k0) (three_nz : kadd k1 (kadd k1 k1) <> k0) (b_nz : b <> k0).
  Add Field KF : Kfield.
  Notation "x +! y" := (kadd x y) (at level 50, left associativity).
  Notation "x *! y" := (kmul x y) (at level 40, left associativity).
  Notation "x -! y" := (ksub x y) (at level 50, left associativity).
  Notation on_curve := (on_curve K kadd kmul keqb b).
  Notation ec_add := (ec_add K k0 k1 kadd kmul ksub kdiv keqb).
  Notation ec_double := (ec_double K k0 k1 kadd kmul ksub kdiv keqb).
  Notation ec_neg := (ec_neg K kopp).
  Notation padd := (p_add K k1 kadd kmul ksub b).
  Notation pdouble := (p_double K k1 kadd kmul ksub b).
  Notation rep := (represents K k0 kmul).
  Notation order_two := (order_two K k0).

  Lemma nz_mul x y : x <> k0 -> y <> k0 -> x *! y <> k0.
  Proof. intros X Y E. apply Y. exact (k_integral K k0 k1 kadd kmul ksub kopp kdiv kinv Kfield x y E X). Qed.
  Lemma nz_l x y : x *! y <> k0 -> x <> k0.
  Proof. intros H E. apply H. rewrite E. ring. Qed.
  Lemma eqb_refl x : keqb x x = true. Proof. apply keqb_spec. reflexivity. Qed.
  Lemma eqb_false x y : keqb x y = false <-> x <> y.
  Proof. split; [intros H E; apply keqb_spec in E; congruence|intros H; destruct (keqb x y) eqn:E; [apply keqb_spec in E; destruct (H E)|reflexivity]]. Qed.
  Lemma eq_dec (x y : K) : {x = y} + {x <> y}.
  Proof. destruct (keqb x y) eqn:E; [left; apply keqb_spec; exact E|right; apply eqb_false; exact E]. Qed.
  Definition scale (l : K) (q : K * K * K) : K * K * K := let '(X, Y, Z) := q in (l *! X, l *! Y, l *! Z).
  Lemma rep_scale l q P : l <> k0 -> rep q P -> rep (scale l q) P.
  Proof.
    destruct q as [[X Y] Z]. intros L. destruct P as [[x y]|]; cbn [represents scale].
    - intros (A & -> & ->). split; [apply nz_mul; assumption|]. split; ring.
    - intros (-> & A & ->). split; [ring|]. split; [apply nz_mul; assumption|ring].
  Qed.
  Lemma add_scale l m q q' : padd (scale l q) (scale m q') = scale ((l *! m) *! (l *! m)) (padd q q').
  Proof. destruct q as [[X Y] Z], q' as [[X' Y'] Z']. cbn [scale p_add]. unfold k3. apply f_equal2; [apply f_equal2|]; ring. Qed.
  Lemma double_scale l q : pdouble (scale l q) = scale ((l *! l) *! (l *! l)) (pdouble q).
  Proof. destruct q as [[X Y] Z]. cbn [scale p_double]. unfold k3. apply f_equal2; [apply f_equal2|]; ring. Qed.
  Lemma scale_0 l : scale l (k0, k0, k0) = (k0, k0, k0).
  Proof. cbn [scale]. apply f_equal2; [apply f_equal2|]; ring. Qed.
  (** The coordinates with Z = 1, or (0 : 1 : 0). *)
  Definition canonical (P : apoint K) : K * K * K := match P with Some (x, y) => (x, y, k1) | None => (k0, k1, k0) end.
  Lemma one_nz : k1 <> k0. Proof. exact (F_1_neq_0 Kfield). Qed.
  Lemma rep_canonical P : rep (canonical P) P.
  Proof. destruct P as [[x y]|]; cbn [canonical represents]; [split; [exact one_nz|split; ring]|split; [reflexivity|split; [exact one_nz|reflexivity]]]. Qed.
  Lemma rep_is q P : rep q P -> exists l, l <> k0 /\ q = scale l (canonical P).
  Proof.
    destruct q as [[X Y] Z]. destruct P as [[x y]|]; cbn [represents scale canonical].
    - intros (A & -> & ->). exists Z. split; [exact A|]. apply f_equal2; [apply f_equal2|]; ring.
    - intros (-> & A & ->). exists Y. split; [exact A|]. apply f_equal2; [apply f_equal2|]; ring.
  Qed.

  Lemma on_eq x y : on_curve (Some (x, y)) = true -> y *! y = x *! x *! x +! b.
  Proof. cbn [Curve.on_curve]. intros H. apply keqb_spec in H. rewrite H. ring. Qed.
  Lemma three_b2 : k3 K k1 kadd *! (k3 K k1 kadd *! (k3 K k1 kadd *! (b *! b))) <> k0.
  Proof. unfold k3. repeat apply nz_mul; assumption. Qed.

  (** ** The four cases *)
  Lemma add_generic x1 y1 x2 y2 : on_curve (Some (x1, y1)) = true -> on_curve (Some (x2, y2)) = true -> x1 <> x2 ->
    ~ order_two (ec_add (Some (x1, y1)) (ec_neg (Some (x2, y2)))) ->
    rep (padd (x1, y1, k1) (x2, y2, k1)) (ec_add (Some (x1, y1)) (Some (x2, y2))).
  Proof.
    intros H1 H2 N T. apply on_eq in H1, H2. cbn [Curve.ec_neg Curve.ec_add] in *. assert (E : keqb x1 x2 = false) by (apply eqb_false, N). rewrite E in *.
    assert (D : x2 -! x1 <> k0) by (intros Z; apply N; symmetry; exact (k_sub_0 K k0 k1 kadd kmul ksub kopp kdiv kinv Kfield _ _ Z)).
    cbn [CompleteSpec.order_two slope_point] in T. cbn [represents slope_point p_add].
    set (Z3 := (y1 *! y2 +! k3 K k1 kadd *! b *! (k1 *! k1)) *! (y1 *! k1 +! y2 *! k1) +! (x1 *! y2 +! x2 *! y1) *! (k3 K k1 kadd *! (x1 *! x2))).
    split; [|split].
    - intros Z. apply T.
      transitivity (Z3 *! kinv ((x2 -! x1) *! (x2 -! x1) *! (x2 -! x1))); [|rewrite Z; ring]. unfold Z3, k3. field [H1 H2]. exact D.
    - unfold Z3, k3. field [H1 H2]. exact D.
    - unfold Z3, k3. field [H1 H2]. exact D.
  Qed.
  Lemma double_one x y : on_curve (Some (x, y)) = true -> rep (pdouble (x, y, k1)) (ec_double (Some (x, y))).
  Proof.
    intros H. apply on_eq in H. cbn [Curve.ec_double]. destruct (keqb y k0) eqn:Y.
    - apply keqb_spec in Y. subst y. cbn [p_double represents]. split; [ring|]. split; [|ring]. intros Z. apply three_b2.
      match type of Z with ?l = _ => transitivity (k0 -! l); [unfold k3; ring|rewrite Z; ring] end.
    - apply eqb_false in Y. cbn [p_double represents slope_point].
      assert (Y2 : y +! y <> k0) by (intros E; apply (nz_mul (k1 +! k1) y two_nz Y); rewrite <- E; ring).
      split; [|split].
      + intros Z. apply (nz_mul (k1 +! k1) _ two_nz (nz_mul (k1 +! k1) _ two_nz (nz_mul (k1 +! k1) _ two_nz (nz_mul y _ Y (nz_mul y y Y Y))))). rewrite <- Z. ring.
      + unfold k3. field [H]. exact Y2.
      + unfold k3. field [H]. exact Y2.
  Qed.
  Lemma add_same x y : on_curve (Some (x, y)) = true -> padd (x, y, k1) (x, y, k1) = pdouble (x, y, k1).
  Proof. intros H. apply on_eq in H. cbn [p_add p_double]. unfold k3. apply f_equal2; [apply f_equal2|]; ring [H]. Qed.
  Lemma add_opposite x y : on_curve (Some (x, y)) = true -> y <> k0 -> ~ order_two (ec_double (Some (x, y))) -> rep (padd (x, y, k1) (x, kopp y, k1)) None.
  Proof.
    intros H Y T. apply on_eq in H. cbn [Curve.ec_double] in T. assert (E : keqb y k0 = false) by (apply eqb_false, Y). rewrite E in T. cbn [CompleteSpec.order_two slope_point] in T.
    assert (Y2 : y +! y <> k0) by (intros Z; apply (nz_mul (k1 +! k1) y two_nz Y); rewrite <- Z; ring).
    cbn [p_add represents]. split; [unfold k3; ring|]. split; [|unfold k3; ring]. intros Z. apply T.
    match type of Z with ?l = _ => transitivity (l *! kinv ((y +! y) *! (y +! y) *! (y +! y))); [unfold k3; field [H]; exact Y2|rewrite Z; ring] end.
  Qed.
  Lemma add_zero_l q P : rep q P -> ~ order_two P -> rep (padd (k0, k1, k0) q) P.
  Proof.
    intros R T. apply rep_is in R as (l & L & ->). destruct P as [[x y]|]; cbn [canonical scale p_add represents CompleteSpec.order_two] in *; unfold k3.
    - split; [|split; ring]. intros Z. apply (nz_mul l _ L (nz_mul l y L T)). rewrite <- Z. ring.
    - split; [ring|]. split; [|ring]. intros Z. apply (nz_mul l l L L). rewrite <- Z. ring.
  Qed.
  Lemma padd_comm q q' : padd q q' = padd q' q.
  Proof. destruct q as [[X Y] Z], q' as [[X' Y'] Z']. cbn [p_add]. unfold k3. apply f_equal2; [apply f_equal2|]; ring. Qed.
  Lemma neg_two y : kopp y = k0 -> y = k0.
  Proof. intros E. transitivity (kopp (kopp y)); [ring|]. rewrite E. ring. Qed.
  Lemma opp_zero : kopp k0 = k0. Proof. ring. Qed.
  Lemma same_x x y y' : on_curve (Some (x, y)) = true -> on_curve (Some (x, y')) = true -> y <> y' -> y' = kopp y.
  Proof.
    intros H H' N. apply on_eq in H, H'. apply (k_sub_0 K k0 k1 kadd kmul ksub kopp kdiv kinv Kfield).
    assert (D : y -! y' <> k0) by (intros E; apply N; exact (k_sub_0 K k0 k1 kadd kmul ksub kopp kdiv kinv Kfield _ _ E)).
    apply (k_integral K k0 k1 kadd kmul ksub kopp kdiv kinv Kfield (y -! y')); [|exact D]. transitivity (y *! y -! y' *! y'); [ring|]. rewrite H, H'. ring.
  Qed.
  Lemma add_canonical P Q : on_curve P = true -> on_curve Q = true -> ~ order_two (ec_add P (ec_neg Q)) -> rep (padd (canonical P) (canonical Q)) (ec_add P Q).
  Proof.
    intros HP HQ T. destruct P as [[x1 y1]|].
    - destruct Q as [[x2 y2]|].
      + destruct (eq_dec x1 x2) as [<-|N]; [|exact (add_generic x1 y1 x2 y2 HP HQ N T)]. cbn [canonical].
        destruct (eq_dec y1 y2) as [<-|N].
        * rewrite (add_same x1 y1 HP). cbn [Curve.ec_add]. rewrite !eqb_refl. exact (double_one x1 y1 HP).
        * pose proof (same_x x1 y1 y2 HP HQ N). subst y2. assert (E : keqb y1 (kopp y1) = false) by (apply eqb_false, N).
          cbn [Curve.ec_add]. rewrite eqb_refl, E. apply (add_opposite x1 y1 HP).
          -- intros Z. apply N. rewrite Z. symmetry. apply opp_zero.
          -- cbn [Curve.ec_neg Curve.ec_add] in T. replace (kopp (kopp y1)) with y1 in T by ring. rewrite !eqb_refl in T. exact T.
      + cbn [canonical Curve.ec_add]. rewrite padd_comm. apply add_zero_l; [apply (rep_canonical (Some (x1, y1)))|exact T].
    - cbn [canonical Curve.ec_add] in *. apply add_zero_l; [apply rep_canonical|]. destruct Q as [[x y]|]; [|exact T]. cbn [Curve.ec_neg CompleteSpec.order_two] in *.
      intros E. apply T. rewrite E. apply opp_zero.
  Qed.
  (** The formulas compute the sum unless the difference has order two, *)
  Lemma add_represents q q' P Q : on_curve P = true -> on_curve Q = true -> rep q P -> rep q' Q -> ~ order_two (ec_add P (ec_neg Q)) -> rep (padd q q') (ec_add P Q).
  Proof.
    intros HP HQ R R' T. apply rep_is in R as (l & L & ->). apply rep_is in R' as (m & M & ->). rewrite add_scale. apply rep_scale; [apply nz_mul; apply nz_mul; assumption|].
    apply add_canonical; assumption.
  Qed.
  (** and always the double. *)
  Lemma double_represents q P : on_curve P = true -> rep q P -> rep (pdouble q) (ec_double P).
  Proof.
    intros HP R. apply rep_is in R as (l & L & ->). rewrite double_scale. apply rep_scale; [apply nz_mul; apply nz_mul; assumption|].
    destruct P as [[x y]|]; [exact (double_one x y HP)|]. cbn [canonical p_double Curve.ec_double represents]. unfold k3. split; [ring|]. split; [|ring].
    intros Z. apply one_nz. rewrite <- Z. ring.
  Qed.
  (** If it has, they compute nothing. *)
  Lemma add_fails P Q : on_curve P = true -> on_curve Q = true -> order_two (ec_add P (ec_neg Q)) -> padd (canonical P) (canonical Q) = (k0, k0, k0).
  Proof.
    intros HP HQ T. destruct P as [[x1 y1]|].
    - destruct Q as [[x2 y2]|].
      + destruct (eq_dec x1 x2) as [<-|N].
        * cbn [Curve.ec_neg Curve.ec_add] in T. rewrite eqb_refl in T. destruct (keqb y1 (kopp y2)) eqn:E; [|destruct T]. apply keqb_spec in E.
          cbn [Curve.ec_double] in T. destruct (keqb y1 k0) eqn:Y; [destruct T|]. apply eqb_false in Y. cbn [CompleteSpec.order_two slope_point] in T.
          assert (Y2 : y1 +! y1 <> k0) by (intros Z; apply (nz_mul (k1 +! k1) y1 two_nz Y); rewrite <- Z; ring).
          assert (y2 = kopp y1) by (rewrite E; ring). subst y2. clear E. pose proof (on_eq _ _ HP) as H. cbn [canonical p_add]. apply f_equal2; [apply f_equal2|]; [unfold k3; ring| |unfold k3; ring].
          match goal with |- ?l = _ => match type of T with ?t = _ => transitivity (t *! ((y1 +! y1) *! (y1 +! y1) *! (y1 +! y1))); [unfold k3; field [H]; exact Y2|rewrite T; ring] end end.
        * pose proof (on_eq _ _ HP) as H1. pose proof (on_eq _ _ HQ) as H2.
          assert (D : x2 -! x1 <> k0) by (intros Z; apply N; symmetry; exact (k_sub_0 K k0 k1 kadd kmul ksub kopp kdiv kinv Kfield _ _ Z)).
          cbn [Curve.ec_neg Curve.ec_add] in T. assert (E : keqb x1 x2 = false) by (apply eqb_false, N). rewrite E in T. cbn [CompleteSpec.order_two slope_point] in T.
          cbn [canonical p_add].
          set (Z3 := (y1 *! y2 +! k3 K k1 kadd *! b *! (k1 *! k1)) *! (y1 *! k1 +! y2 *! k1) +! (x1 *! y2 +! x2 *! y1) *! (k3 K k1 kadd *! (x1 *! x2))).
          assert (Z : Z3 = k0).
          { match type of T with ?t = _ => transitivity (t *! ((x2 -! x1) *! (x2 -! x1) *! (x2 -! x1))); [unfold Z3, k3; field [H1 H2]; exact D|rewrite T; ring] end. }
          set (S := slope_point K kmul ksub (kdiv (y2 -! y1) (x2 -! x1)) x1 y1 x2).
          apply f_equal2; [apply f_equal2|exact Z].
          -- transitivity (fst S *! Z3); [|rewrite Z; ring]. unfold S, Z3, k3. cbn [fst slope_point]. field [H1 H2]. exact D.
          -- transitivity (snd S *! Z3); [|rewrite Z; ring]. unfold S, Z3, k3. cbn [snd slope_point]. field [H1 H2]. exact D.
      + cbn [Curve.ec_neg Curve.ec_add CompleteSpec.order_two] in T. subst y1. cbn [canonical p_add]. unfold k3. apply f_equal2; [apply f_equal2|]; ring.
    - destruct Q as [[x y]|]; [|destruct T]. cbn [Curve.ec_neg Curve.ec_add CompleteSpec.order_two] in T. apply neg_two in T. subst y. cbn [canonical p_add]. unfold k3. apply f_equal2; [apply f_equal2|]; ring.
  Qed.

  (** ** Comparison and affine coordinates *)
  Lemma is_eq_represents q q' P Q : rep q P -> rep q' Q -> p_is_eq K k0 kmul keqb q q' = true <-> P = Q.
  Proof.
    destruct q as [[X Y] Z], q' as [[X' Y'] Z']. unfold p_is_eq. destruct P as [[x y]|], Q as [[x' y']|]; cbn [represents].
    - intros (A & -> & ->) (A' & -> & ->). assert (E : keqb Z k0 = false) by (apply eqb_false, A). rewrite E. cbn [andb orb]. rewrite andb_true_iff, !keqb_spec. split.
      + intros [EX EY]. f_equal. f_equal; apply (k_sub_0 K k0 k1 kadd kmul ksub kopp kdiv kinv Kfield); apply (k_integral K k0 k1 kadd kmul ksub kopp kdiv kinv Kfield (Z *! Z'));
          [|apply nz_mul; assumption| |apply nz_mul; assumption].
        * transitivity (x *! Z *! Z' -! x' *! Z' *! Z); [ring|]. rewrite EX. ring.
        * transitivity (y *! Z *! Z' -! y' *! Z' *! Z); [ring|]. rewrite EY. ring.
      + intros E'. assert (x = x' /\ y = y') as [-> ->] by (split; congruence). split; ring.
    - intros (A & -> & ->) (-> & A' & ->). assert (E : keqb Z k0 = false) by (apply eqb_false, A). rewrite E. cbn [andb orb]. rewrite andb_true_iff, !keqb_spec. split; [|intros F; discriminate F].
      intros [_ F]. exfalso. apply (nz_mul Y' Z A' A). rewrite <- F. ring.
    - intros (-> & A & ->) (A' & -> & ->). assert (E : keqb Z' k0 = false) by (apply eqb_false, A'). rewrite E, andb_false_r. cbn [orb]. rewrite andb_true_iff, !keqb_spec. split; [|intros F; discriminate F].
      intros [_ F]. exfalso. apply (nz_mul Y Z' A A'). rewrite F. ring.
    - intros (-> & A & ->) (-> & A' & ->). rewrite eqb_refl. cbn [andb orb]. tauto.
  Qed.
  Lemma to_affine_represents q P c : rep q P -> holds (p_to_affine K k1 kmul keqb kinv q) c <-> P = Some c.
  Proof.
    destruct q as [[X Y] Z]. destruct c as [cx cy]. unfold p_to_affine, p_mul_by_inverse. cbn [cbind witness enforce holds]. destruct P as [[x y]|]; cbn [represents].
    - intros (A & -> & ->). split.
      + intros (i & I & j & J & E). apply keqb_spec in I, J. apply (f_equal Some) in E. rewrite <- E. f_equal. apply f_equal2.
        * transitivity (x *! (Z *! i)); [rewrite I; ring|ring].
        * transitivity (y *! (Z *! j)); [rewrite J; ring|ring].
      + intros E. assert (x = cx /\ y = cy) as [-> ->] by (split; congruence). exists (kinv Z). split; [apply keqb_spec; field; exact A|]. exists (kinv Z).
        split; [apply keqb_spec; field; exact A|]. apply f_equal2; field; exact A.
    - intros (_ & _ & ->). split; [|intros E; discriminate E]. intros (i & I & _). apply keqb_spec in I. exfalso. apply one_nz. rewrite <- I. ring.
  Qed.
End Formulas.
