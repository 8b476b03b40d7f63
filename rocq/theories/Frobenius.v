(** The endomorphism (x, y) -> (k^2 s(x), k^3 s(y)) of a curve y^2 = x^3 + b, for a field automorphism s with k^6 s(b) = b. *)
From Coq Require Import Field.
From Verif Require Import Base Constants Group Field Curve PointModel EncodingModel CurveGroups Weierstrass.

Section Curve.
  Context (K : Type) (k0 k1 : K) (kadd kmul ksub : K -> K -> K) (kopp : K -> K) (kdiv : K -> K -> K) (kinv : K -> K).
  Context (keqb : K -> K -> bool) (b : K).
  Hypothesis Kfield : field_theory k0 k1 kadd kmul ksub kopp kdiv kinv (@eq K).
  Hypothesis keqb_spec : forall x y, keqb x y = true <-> x = y.
  Hypothesis two_nz : kadd k1 k1 <> k0.
  Hypothesis three_nz : kadd k1 (kadd k1 k1) <> k0.
  Hypothesis b_nz : b <> k0.
  Context (code : K -> nat) (decode : nat -> K) (decode_code : forall x, decode (code x) = x).
  Add Field KF : Kfield.
  Notation "x +! y" := (kadd x y) (at level 50, left associativity).
  Notation "x *! y" := (kmul x y) (at level 40, left associativity).
  Notation "x -! y" := (ksub x y) (at level 50, left associativity).
  Context (s : K -> K) (k : K).
  Hypothesis s_add : forall x y, s (x +! y) = s x +! s y.
  Hypothesis s_mul : forall x y, s (x *! y) = s x *! s y.
  Hypothesis s_1 : s k1 = k1.
  Hypothesis k_nz : k <> k0.
  Hypothesis k_b : k *! k *! k *! (k *! k *! k) *! s b = b.
  Notation on := (on_curve K kadd kmul keqb b).
  Notation add := (ec_add K k0 k1 kadd kmul ksub kdiv keqb).
  Notation E := (curve_grp K k0 k1 kadd kmul ksub kopp kdiv kinv keqb b Kfield keqb_spec two_nz three_nz b_nz code decode decode_code).
  Notation ext := (point_ext K kadd kmul keqb b).
  Let sub_0 := k_sub_0 K k0 k1 kadd kmul ksub kopp kdiv kinv Kfield.
  Let integral := k_integral K k0 k1 kadd kmul ksub kopp kdiv kinv Kfield.
  Lemma s_0 : s k0 = k0.
  Proof.
    assert (H : s k0 = s k0 +! s k0) by (rewrite <- s_add; f_equal; ring). transitivity (s k0 +! s k0 -! s k0); [ring|]. rewrite <- H. ring.
  Qed.
  Lemma s_sub x y : s (x -! y) = s x -! s y.
  Proof. transitivity (s (x -! y) +! s y -! s y); [ring|]. rewrite <- s_add. do 2 f_equal. ring. Qed.
  Lemma s_nz x : x <> k0 -> s x <> k0.
  Proof. intros H Z. apply (F_1_neq_0 Kfield). rewrite <- s_1. transitivity (s (x *! kinv x)); [f_equal; field; exact H|]. rewrite s_mul, Z. ring. Qed.
  Lemma s_inj x y : s x = s y -> x = y.
  Proof.
    intros H. destruct (keqb (x -! y) k0) eqn:Q; [apply keqb_spec in Q; apply sub_0, Q|exfalso]. apply (s_nz (x -! y)); [intros Z; apply keqb_spec in Z; congruence|].
    rewrite s_sub, H. ring.
  Qed.
  Lemma s_div x y : y <> k0 -> s (kdiv x y) = kdiv (s x) (s y).
  Proof.
    intros H. pose proof (s_nz y H) as H'. transitivity (kdiv (s (kdiv x y) *! s y) (s y)); [field; exact H'|]. rewrite <- s_mul. do 2 f_equal. field. exact H.
  Qed.
  Definition map_s (P : apoint K) : apoint K := match P with None => None | Some (x, y) => Some (k *! k *! s x, k *! k *! k *! s y) end.
  Lemma map_s_on P : on P = true -> on (map_s P) = true.
  Proof.
    destruct P as [[x y]|]; [|reflexivity]. cbn [map_s on_curve]. rewrite !keqb_spec. intros H. apply (f_equal s) in H. rewrite s_add, !s_mul in H.
    transitivity (k *! k *! k *! (k *! k *! k) *! (s y *! s y)); [ring|]. rewrite H. rewrite <- k_b at 2. ring.
  Qed.
  Lemma mul_eqb c x y : c <> k0 -> keqb (c *! s x) (c *! s y) = keqb x y.
  Proof.
    intros Hc. destruct (keqb x y) eqn:H.
    - apply keqb_spec in H. subst. apply keqb_spec. reflexivity.
    - destruct (keqb (c *! s x) (c *! s y)) eqn:H'; [|reflexivity]. apply keqb_spec in H'. rewrite <- H. symmetry. apply keqb_spec, s_inj.
      transitivity (kdiv (c *! s x) c); [|rewrite H']; field; exact Hc.
  Qed.
  Lemma prod_nz x y : x <> k0 -> y <> k0 -> x *! y <> k0.
  Proof. intros Hx Hy Z. apply Hy. exact (integral x y Z Hx). Qed.
  Lemma slope_s l x y x' : slope_point K kmul ksub (k *! s l) (k *! k *! s x) (k *! k *! k *! s y) (k *! k *! s x') =
    let '(x3, y3) := slope_point K kmul ksub l x y x' in (k *! k *! s x3, k *! k *! k *! s y3).
  Proof. unfold slope_point. cbn zeta. rewrite !s_sub, !s_mul, !s_sub, !s_mul. f_equal; ring. Qed.
  Lemma map_s_add P Q : map_s (add P Q) = add (map_s P) (map_s Q).
  Proof.
    assert (k2 : k *! k <> k0) by (apply prod_nz; exact k_nz). assert (k3 : k *! k *! k <> k0) by (apply prod_nz; [exact k2|exact k_nz]).
    destruct P as [[x y]|]; [|reflexivity]. destruct Q as [[x' y']|]; [|reflexivity]. cbn [map_s ec_add]. rewrite !mul_eqb by assumption.
    destruct (keqb x x') eqn:Ex.
    - destruct (keqb y y') eqn:Ey; [|reflexivity]. cbn [ec_double map_s].
      assert (Y0 : keqb (k *! k *! k *! s y) k0 = keqb y k0). { rewrite <- (mul_eqb (k *! k *! k) y k0 k3), s_0. f_equal. ring. }
      rewrite Y0. destruct (keqb y k0) eqn:E0; [reflexivity|]. apply keqb_spec in Ex. subst x'.
      assert (N : y +! y <> k0). { intros Z. assert (Hy : y = k0) by (apply (integral (k1 +! k1)); [rewrite <- Z; ring|exact two_nz]). apply keqb_spec in Hy. congruence. }
      assert (N' : s y +! s y <> k0) by (rewrite <- s_add; apply s_nz, N).
      set (l := kdiv _ (y +! y)). replace (kdiv _ (k *! k *! k *! s y +! k *! k *! k *! s y)) with (k *! s l); [rewrite slope_s; destruct (slope_point _ _ _ _ _ _ _); reflexivity|].
      unfold l. rewrite s_div, !s_mul, !s_add, s_1 by exact N. field. split; [|assumption].
      intros Z. apply N'. apply (integral (k *! k *! k)); [rewrite <- Z; ring|exact k3].
    - set (l := kdiv (y' -! y) (x' -! x)).
      assert (Hd : x' -! x <> k0) by (intros Z; apply sub_0 in Z; subst; rewrite (proj2 (keqb_spec x x) eq_refl) in Ex; discriminate Ex).
      assert (Hs : s x' -! s x <> k0) by (rewrite <- s_sub; apply s_nz, Hd).
      replace (kdiv (k *! k *! k *! s y' -! k *! k *! k *! s y) (k *! k *! s x' -! k *! k *! s x)) with (k *! s l); [rewrite slope_s; destruct (slope_point _ _ _ _ _ _ _); reflexivity|].
      unfold l. rewrite s_div, !s_sub by exact Hd. field. split; [|assumption].
      intros Z. apply Hs. apply (integral (k *! k)); [rewrite <- Z; ring|exact k2].
  Qed.
  Definition psi (P : E) : E := exist _ (map_s (proj1_sig P)) (map_s_on _ (proj2_sig P)).
  Lemma psi_hom P Q : psi (ga P Q) = ga (psi P) (psi Q).
  Proof. apply ext. exact (map_s_add (proj1_sig P) (proj1_sig Q)). Qed.
End Curve.
