(** The affine addition law of a non-singular curve y^2 = x^3 + b (Curve.v) is associative over any field
    of odd characteristic that embeds in the natural numbers.  The proof follows the classical argument:
    a point goes to the class of its ideal in the coordinate ring, addition goes to multiplication of
    classes, and no two points have the same class. *)
From mathcomp Require Import ssreflect ssrfun ssrbool eqtype ssrnat seq choice ssralg poly.
From Coq Require Import Field.
From Verif Require Import Base Curve Ideals CoordRing.

Section Law.
  Context (K : Type) (k0 k1 : K) (kadd kmul ksub : K -> K -> K) (kopp : K -> K) (kdiv : K -> K -> K) (kinv : K -> K).
  Context (keqb : K -> K -> bool) (b : K).
  Hypothesis Kfield : field_theory k0 k1 kadd kmul ksub kopp kdiv kinv (@eq K).
  Hypothesis keqb_spec : forall x y, keqb x y = true <-> x = y.
  Hypothesis two_nz : kadd k1 k1 <> k0.
  Hypothesis three_nz : kadd k1 (kadd k1 k1) <> k0.
  Hypothesis b_nz : b <> k0.
  Context (code : K -> nat) (decode : nat -> K) (decode_code : forall x, decode (code x) = x).
  Add Field KF : Kfield.

  (** ** The field as a structure of the mathcomp library *)
  Lemma keqP : Equality.axiom keqb.
  Proof. move=> x y. apply: (iffP idP); apply keqb_spec. Qed.
  Local Canonical K_eqType := Eval hnf in EqType K (EqMixin keqP).
  Local Canonical K_choiceType := Eval hnf in ChoiceType K (CanChoiceMixin decode_code).
  Lemma kaddA : associative kadd. Proof. move=> x y z. ring. Qed.
  Lemma kaddC : commutative kadd. Proof. move=> x y. ring. Qed.
  Lemma kadd0 : left_id k0 kadd. Proof. move=> x. ring. Qed.
  Lemma kaddN : left_inverse k0 kopp kadd. Proof. move=> x. ring. Qed.
  Local Canonical K_zmodType := Eval hnf in ZmodType K (ZmodMixin kaddA kaddC kadd0 kaddN).
  Lemma kmulA : associative kmul. Proof. move=> x y z. ring. Qed.
  Lemma kmulC : commutative kmul. Proof. move=> x y. ring. Qed.
  Lemma kmul1 : left_id k1 kmul. Proof. move=> x. ring. Qed.
  Lemma kmulD : left_distributive kmul kadd. Proof. move=> x y z. ring. Qed.
  Lemma k1_nz : k1 != k0. Proof. apply/keqP. exact: (F_1_neq_0 Kfield). Qed.
  Local Canonical K_ringType := Eval hnf in RingType K (ComRingMixin kmulA kmulC kmul1 kmulD k1_nz).
  Local Canonical K_comRingType := Eval hnf in ComRingType K kmulC.
  Definition kinv0 (x : K) : K := if keqb x k0 then k0 else kinv x.
  Lemma kmulV : GRing.Field.axiom (kinv0 : K_ringType -> K_ringType).
  Proof.
    move=> x Hx. rewrite /kinv0. case E: (keqb x k0).
    - exfalso. move/negP: Hx. apply. exact: E.
    - apply: (Finv_l Kfield). move/keqb_spec. by rewrite E.
  Qed.
  Lemma kinv0_0 : kinv0 k0 = k0. Proof. rewrite /kinv0. by case: (keqb k0 k0) (proj2 (keqb_spec k0 k0) erefl). Qed.
  Local Canonical K_unitRingType := Eval hnf in UnitRingType K (FieldUnitMixin kmulV kinv0_0).
  Local Canonical K_comUnitRingType := Eval hnf in [comUnitRingType of K].
  Lemma k_field_axiom : GRing.Field.mixin_of K_unitRingType. Proof. done. Qed.
  Local Canonical K_idomainType := Eval hnf in IdomainType K (FieldIdomainMixin k_field_axiom).
  Local Canonical K_fieldType := Eval hnf in FieldType K k_field_axiom.

  (** ** The class of a point *)
  Notation F := K_fieldType.
  Notation R := (cr F).
  Notation c0 := (c0 F).
  Notation cadd := (cadd F).
  Notation cmul := (cmul F b).
  Notation prod := (Ideals.prod R c0 cadd cmul).
  Notation equiv := (Ideals.equiv R c0 cmul).
  Notation point := (apoint K).
  Notation on := (on_curve K kadd kmul keqb b).
  Notation add := (ec_add K k0 k1 kadd kmul ksub kdiv keqb).
  Notation neg := (ec_neg K kopp).
  Definition class (P : point) : subset R :=
    match P with None => whole R | Some (x, y) => pid F x y end.
  Lemma class_ideal P : on P = true -> ideal R c0 cadd cmul (class P).
  Proof.
    case: P => [[x y]|] /=; [move/keqb_spec => H; exact: pid_ideal|]. by [].
  Qed.

  Lemma k_integral x y : kmul x y = k0 -> x <> k0 -> y = k0.
  Proof. intros H Hx. transitivity (kmul (kinv x) (kmul x y)); [field; assumption|]. rewrite H. ring. Qed.
  Lemma double_nz y : y <> k0 -> kadd y y <> k0.
  Proof. intros Hy E. apply Hy, (k_integral (kadd k1 k1)); [rewrite <- E; ring|assumption]. Qed.
  Lemma k_sub_eq x y : ksub x y = k0 -> x = y.
  Proof. intros H. transitivity (kadd (ksub x y) y); [ring|]. rewrite H. ring. Qed.
  Lemma keqb_false x y : keqb x y = false <-> x <> y.
  Proof. rewrite <- keqb_spec. destruct (keqb x y); split; congruence. Qed.
  Lemma c_ring : ring_theory c0 (c1 F) cadd cmul (csub F) (copp F) (@eq R). Proof. exact: cr_ring. Qed.
  Lemma c_equiv_refl I : equiv I I.
  Proof. apply: (same_equiv _ _ _ _ (cr_nontrivial F)). by []. Qed.
  Lemma c_equiv_trans I J L : equiv I J -> equiv J L -> equiv I L.
  Proof. exact: (equiv_trans _ _ _ _ _ _ _ c_ring (cr_domain F b)). Qed.
  Lemma c_equiv_sym I J : equiv I J -> equiv J I. Proof. exact: equiv_sym. Qed.
  Lemma c_prod_comm I J : equiv (prod I J) (prod J I).
  Proof. apply: (same_equiv _ _ _ _ (cr_nontrivial F)). exact: (prod_comm _ _ _ _ _ _ _ c_ring). Qed.
  Lemma c_prod_l I J L : equiv I J -> equiv (prod I L) (prod J L).
  Proof. exact: (equiv_prod_l _ _ _ _ _ _ _ c_ring). Qed.
  Lemma c_prod_r I J L : equiv J L -> equiv (prod I J) (prod I L).
  Proof.
    move=> H. apply: c_equiv_trans (c_prod_comm _ _) _. apply: c_equiv_trans (c_prod_comm _ _). exact: c_prod_l.
  Qed.

  Lemma class_add P Q : on P = true -> on Q = true -> equiv (prod (class P) (class Q)) (class (add P Q)).
  Proof.
    intros HP HQ. pose proof (ec_add_on K k0 k1 kadd kmul ksub kopp kdiv kinv keqb b Kfield keqb_spec two_nz P Q HP HQ) as HS.
    destruct P as [[x1 y1]|]; last first.
    { eapply c_equiv_trans; [apply c_prod_comm|]. apply: (same_equiv _ _ _ _ (cr_nontrivial F)).
      apply: (prod_whole _ _ _ _ _ _ _ c_ring). exact: class_ideal. }
    destruct Q as [[x2 y2]|]; last first.
    { apply: (same_equiv _ _ _ _ (cr_nontrivial F)). apply: (prod_whole _ _ _ _ _ _ _ c_ring). exact: class_ideal. }
    cbn [on_curve] in HP, HQ. apply keqb_spec in HP, HQ. cbn [ec_add] in *.
    destruct (keqb x1 x2) eqn:Ex.
    - apply keqb_spec in Ex. subst x2. destruct (keqb y1 y2) eqn:Ey.
      + apply keqb_spec in Ey. subst y2. cbn [ec_double] in *. destruct (keqb y1 k0) eqn:E0.
        * apply keqb_spec in E0. subst y1.
          assert (En : k0 = kopp k0) by ring.
          assert (Hx : kadd (kadd (kmul x1 x1) (kmul x1 x1)) (kmul x1 x1) <> k0).
          { intros E. assert (Z : x1 = k0).
            { destruct (keqb x1 k0) eqn:Ex1; [apply keqb_spec; assumption|]. apply keqb_false in Ex1.
              apply (k_integral x1); [|assumption]. apply (k_integral (kadd k1 (kadd k1 k1))); [|assumption].
              rewrite <- E. ring. }
            apply b_nz. subst x1. transitivity (kadd (kmul k0 (kmul k0 k0)) b); [ring|]. rewrite <- HP. ring. }
          cbn [class]. rewrite {2}En. apply: (pid_opposite F b x1 k0 HP). apply/orP. right. apply/keqP. exact: Hx.
        * apply keqb_false in E0. unfold slope_point in *. cbn [class].
          set (l := kdiv _ _) in *. assert (Hl : kmul l (kadd y1 y1) = kmul (kadd k1 (kadd k1 k1)) (kmul x1 x1)).
          { unfold l. field. apply double_nz, E0. }
          cbn [on_curve] in HS. apply keqb_spec in HS.
          apply: (pid_double F b l x1 y1 _ _ HP HS).
          -- apply/keqP. exact: double_nz.
          -- transitivity (ksub (ksub (kmul l l) x1) x1); [reflexivity|]. 
             change (ksub (ksub (kmul l l) x1) x1 = kadd (kadd (kmul l l) (kopp x1)) (kopp x1)). ring.
          -- set (x3 := ksub (ksub (kmul l l) x1) x1).
             change (ksub (kmul l (ksub x1 x3)) y1 = kadd (kmul l (kadd x1 (kopp x3))) (kopp y1)). ring.
          -- set (x3 := ksub (ksub (kmul l l) x1) x1).
             set (t := kadd (kmul l x1) (kopp y1)).
             change (kadd (kmul l t) (kmul l t) = kadd (kadd (kmul x1 x1) (kmul x1 x3)) (kmul x1 x3)).
             apply k_sub_eq. transitivity (ksub (kmul (kadd k1 (kadd k1 k1)) (kmul x1 x1)) (kmul l (kadd y1 y1))); [unfold t, x3; ring|].
             rewrite Hl. ring.
      + apply keqb_false in Ey. assert (En : y2 = kopp y1).
        { apply k_sub_eq. apply (k_integral (ksub y1 y2)).
          - transitivity (ksub (kmul y1 y1) (kmul y2 y2)); [ring|]. rewrite HP HQ. ring.
          - intros E. apply Ey, k_sub_eq, E. }
        subst y2. cbn [class]. apply: (pid_opposite F b x1 y1 HP). apply/orP. left. apply/keqP => E. apply Ey, k_sub_eq.
        change (kadd y1 y1 = k0) in E. rewrite <- E. ring.
    - apply keqb_false in Ex. unfold slope_point in *. cbn [class].
      assert (Hd : ksub x2 x1 <> k0) by (intros Z; apply Ex; symmetry; apply k_sub_eq, Z).
      set (l := kdiv _ _) in *. assert (Hl : y2 = kadd y1 (kmul l (ksub x2 x1))) by (unfold l; field; assumption).
      cbn [on_curve] in HS. apply keqb_spec in HS.
      apply: (pid_add F b l x1 y1 x2 y2 _ _ HP HQ HS).
      + apply/keqP. exact: Ex.
      + change (y2 = kadd y1 (kmul l (kadd x2 (kopp x1)))). rewrite -> Hl at 1. ring.
      + change (ksub (ksub (kmul l l) x1) x2 = kadd (kadd (kmul l l) (kopp x1)) (kopp x2)). ring.
      + set (x3 := ksub (ksub (kmul l l) x1) x2).
        change (ksub (kmul l (ksub x1 x3)) y1 = kadd (kmul l (kadd x1 (kopp x3))) (kopp y1)). ring.
      + set (x3 := ksub (ksub (kmul l l) x1) x2). set (t := kadd (kmul l x1) (kopp y1)).
        change (kadd (kmul l t) (kmul l t) = kadd (kadd (kmul x1 x2) (kmul x1 x3)) (kmul x2 x3)).
        apply k_sub_eq, (k_integral (ksub x2 x1)); [|assumption].
        set (f := fun x => ksub (kadd (kmul x (kmul x x)) b) (kmul (kadd y1 (kmul l (ksub x x1))) (kadd y1 (kmul l (ksub x x1))))).
        assert (F1 : f x1 = k0) by (unfold f; transitivity (ksub (kadd (kmul x1 (kmul x1 x1)) b) (kmul y1 y1)); [ring|rewrite HP; ring]).
        assert (F2 : f x2 = k0) by (unfold f; rewrite <- Hl, HQ; ring).
        transitivity (ksub (f x2) (f x1)); [unfold f, t, x3; ring|rewrite F1 F2; ring].
  Qed.

  Lemma class_whole P : on P = true -> equiv (class P) (whole R) -> P = None.
  Proof. case: P => [[x y]|] //= /keqb_spec H E. by case: (pid_not_principal F b x y H). Qed.
  Lemma add_neg_r P : on P = true -> add P (neg P) = None.
  Proof. exact: (ec_add_neg K k0 k1 kadd kmul ksub kopp kdiv kinv keqb b Kfield keqb_spec two_nz). Qed.
  Lemma add_none P Q : on P = true -> on Q = true -> add P (neg Q) = None -> P = Q.
  Proof.
    case: P => [[x1 y1]|]; case: Q => [[x2 y2]|] //. cbn [on_curve ec_neg ec_add]. intros HP%keqb_spec HQ%keqb_spec.
    destruct (keqb x1 x2) eqn:E; [|discriminate]. apply keqb_spec in E. subst x2.
    destruct (keqb y1 y2) eqn:Ey; [apply keqb_spec in Ey; congruence|]. apply keqb_false in Ey.
    assert (En : y1 = kopp y2).
    { apply k_sub_eq. apply (k_integral (ksub y1 y2)).
      - transitivity (ksub (kmul y1 y1) (kmul y2 y2)); [ring|]. rewrite HP HQ. ring.
      - intros Z. apply Ey, k_sub_eq, Z. }
    rewrite (proj2 (keqb_spec _ _) En). cbn [ec_double]. destruct (keqb y1 k0) eqn:E0; [|discriminate].
    apply keqb_spec in E0. intros _. exfalso. apply Ey. rewrite E0. transitivity (kopp (kopp y2)); [rewrite <- En, E0; ring|ring].
  Qed.
  Lemma class_inj P Q : on P = true -> on Q = true -> equiv (class P) (class Q) -> P = Q.
  Proof.
    move=> HP HQ H.
    have HN : on (neg Q) = true by exact: (ec_neg_on K k0 k1 kadd kmul ksub kopp kdiv kinv keqb b Kfield keqb_spec).
    apply: add_none => //. apply: class_whole.
    - exact: (ec_add_on K k0 k1 kadd kmul ksub kopp kdiv kinv keqb b Kfield keqb_spec two_nz).
    - apply: c_equiv_trans (c_equiv_sym _ _ (class_add _ _ HP HN)) _.
      apply: c_equiv_trans (c_prod_l _ _ _ H) _. apply: c_equiv_trans (class_add _ _ HQ HN) _.
      rewrite add_neg_r //. exact: c_equiv_refl.
  Qed.
  Theorem add_assoc P Q S : on P = true -> on Q = true -> on S = true -> add P (add Q S) = add (add P Q) S.
  Proof.
    have Hon := ec_add_on K k0 k1 kadd kmul ksub kopp kdiv kinv keqb b Kfield keqb_spec two_nz.
    move=> HP HQ HS. apply: class_inj; [by apply Hon => //; apply Hon|by apply Hon => //; apply Hon|].
    apply: c_equiv_trans (c_equiv_sym _ _ (class_add _ _ HP (Hon _ _ HQ HS))) _.
    apply: c_equiv_trans (c_prod_r _ _ _ (c_equiv_sym _ _ (class_add _ _ HQ HS))) _.
    apply: c_equiv_trans (class_add _ _ (Hon _ _ HP HQ) HS).
    apply: c_equiv_trans (c_prod_l _ _ _ (class_add _ _ HP HQ)).
    apply: c_equiv_sym. apply: (same_equiv _ _ _ _ (cr_nontrivial F)). exact: (prod_assoc _ _ _ _ _ _ _ c_ring).
  Qed.
End Law.
