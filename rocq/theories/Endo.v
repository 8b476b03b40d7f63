(** The endomorphism (x, y) -> (beta x, y) of a curve y^2 = x^3 + b, beta a cube root of unity, and what it says about the
    order of the group. *)
From Coq Require Import Field Znumtheory.
From Verif Require Import Base Constants Group Field Curve PointModel EncodingModel CurveGroups Weierstrass CurveFinite.

Section Group.
  Context {G : grp} (phi : G -> G).
  Hypothesis phi_add : forall P Q, phi (ga P Q) = ga (phi P) (phi Q).
  Hypothesis phi_3 : forall P, ga P (ga (phi P) (phi (phi P))) = gz.
  Lemma phi_0 : phi gz = gz.
  Proof. apply (ga_cancel_l (phi gz)). rewrite <- phi_add, ga_0_l, ga_0_r. reflexivity. Qed.
  Lemma phi_pmul n (P : G) : phi (pmul n P) = pmul n (phi P).
  Proof. induction n as [|n IH] using Pos.peano_ind; [reflexivity|]. rewrite !pmul_succ, phi_add, IH. reflexivity. Qed.
  Lemma phi_smul k (P : G) : phi (smul k P) = smul k (phi P).
  Proof.
    destruct k as [|n|n]; cbn [smul]; [apply phi_0|apply phi_pmul|]. rewrite <- phi_pmul. apply gn_unique. rewrite <- phi_add, gn_r. apply phi_0.
  Qed.
  Lemma prime_kills l m (T : G) : prime l -> smul l T = gz -> smul m T = gz -> T <> gz -> (l | m).
  Proof.
    intros Hl H1 H2 N. destruct (Zdivide_dec l m) as [D|D]; [exact D|exfalso]. apply N.
    destruct (rel_prime_bezout l m (prime_rel_prime l Hl m D)) as [u v E]. rewrite <- (smul_1 T), <- E, smul_add, !smul_mul, H1, H2, !smul_gz, ga_0_l. reflexivity.
  Qed.
  Lemma eigen l a (T : G) : prime l -> smul l T = gz -> T <> gz -> phi T = smul a T -> (l | a * a + a + 1).
  Proof.
    intros Hl H N E. apply (prime_kills l _ T Hl H); [|exact N]. rewrite <- (phi_3 T), E, phi_smul, E, <- smul_mul, !smul_add, smul_1, (ga_comm _ _ T), (ga_comm _ (smul (a * a) T)). reflexivity.
  Qed.
  Lemma phi_square n l k (P : G) : finite_order G n -> prime l -> 0 <= k -> smul (l ^ (k + 1)) P = gz -> smul (l ^ k) P <> gz ->
    (forall a, (l | a * a + a + 1) -> phi (smul (l ^ k) P) <> smul a (smul (l ^ k) P)) -> (l ^ (k + 1) * l ^ (k + 1) | n).
  Proof.
    intros F Hl Hk H1 H0 N. apply (fo_square G n F l k P (phi P) Hl Hk H1 H0).
    - rewrite <- phi_smul, H1. apply phi_0.
    - intros a E. rewrite <- phi_smul in E. apply (N a); [|exact E]. apply (eigen l a _ Hl) in E; [exact E| |exact H0].
      rewrite <- smul_mul. rewrite <- H1. f_equal. rewrite Z.pow_add_r, Z.pow_1_r by lia. ring.
  Qed.
  (** the eigenvalues only matter modulo l *)
  Lemma eigen_mod l a (T : G) : smul l T = gz -> smul a T = smul (a mod l) T.
  Proof. intros H. destruct (Z.eq_dec l 0) as [->|N]; [rewrite Zmod_0_r; reflexivity|]. rewrite (Z.div_mod a l N) at 1. rewrite smul_add, Z.mul_comm, smul_mul, H, smul_gz, ga_0_l. reflexivity. Qed.
  Lemma eigen_sum s (g : G) : smul s g = gn (phi g) -> smul (s * s - s + 1) g = gz.
  Proof.
    intros E. rewrite smul_add, smul_sub, smul_mul, E, smul_gn, <- phi_smul, E, smul_1.
    assert (N : phi (gn (phi g)) = gn (phi (phi g))) by (apply gn_unique; rewrite <- phi_add, gn_r; apply phi_0).
    rewrite N, !gn_gn, ga_comm, (ga_comm _ (phi (phi g))). apply phi_3.
  Qed.
End Group.

Section Curve.
  Context (K : Type) (k0 k1 : K) (kadd kmul ksub : K -> K -> K) (kopp : K -> K) (kdiv : K -> K -> K) (kinv : K -> K).
  Context (keqb : K -> K -> bool) (b : K).
  Hypothesis Kfield : field_theory k0 k1 kadd kmul ksub kopp kdiv kinv (@eq K).
  Hypothesis keqb_spec : forall x y, keqb x y = true <-> x = y.
  Hypothesis two_nz : kadd k1 k1 <> k0.
  Hypothesis three_nz : kadd k1 (kadd k1 k1) <> k0.
  Hypothesis b_nz : b <> k0.
  Context (code : K -> nat) (decode : nat -> K) (decode_code : forall x, decode (code x) = x).
  Context (beta : K).
  Hypothesis beta_1 : beta <> k1.
  Hypothesis beta_3 : kadd k1 (kadd beta (kmul beta beta)) = k0.
  Add Field KF : Kfield.
  Notation "x +! y" := (kadd x y) (at level 50, left associativity).
  Notation "x *! y" := (kmul x y) (at level 40, left associativity).
  Notation "x -! y" := (ksub x y) (at level 50, left associativity).
  Notation on := (on_curve K kadd kmul keqb b).
  Notation add := (ec_add K k0 k1 kadd kmul ksub kdiv keqb).
  Notation neg := (ec_neg K kopp).
  Notation E := (curve_grp K k0 k1 kadd kmul ksub kopp kdiv kinv keqb b Kfield keqb_spec two_nz three_nz b_nz code decode decode_code).
  Notation ext := (point_ext K kadd kmul keqb b).
  Let sub_0 := k_sub_0 K k0 k1 kadd kmul ksub kopp kdiv kinv Kfield.
  Let integral := k_integral K k0 k1 kadd kmul ksub kopp kdiv kinv Kfield.
  Definition map_beta (P : apoint K) : apoint K := match P with None => None | Some (x, y) => Some (beta *! x, y) end.
  Lemma cube : beta *! (beta *! beta) = k1.
  Proof. apply sub_0. transitivity ((beta -! k1) *! (k1 +! (beta +! beta *! beta))); [ring|]. rewrite beta_3. ring. Qed.
  Lemma beta_0 : beta <> k0. Proof. intros Z. apply (F_1_neq_0 Kfield). rewrite <- cube, Z. ring. Qed.
  Lemma map_on P : on P = true -> on (map_beta P) = true.
  Proof.
    destruct P as [[x y]|]; [|reflexivity]. cbn [map_beta on_curve]. rewrite !keqb_spec. intros ->. 
    transitivity ((beta *! (beta *! beta)) *! (x *! (x *! x)) +! b); [rewrite cube|]; ring.
  Qed.
  Lemma beta_eqb x x' : keqb (beta *! x) (beta *! x') = keqb x x'.
  Proof.
    destruct (keqb x x') eqn:H.
    - apply keqb_spec in H. subst. apply keqb_spec. reflexivity.
    - destruct (keqb (beta *! x) (beta *! x')) eqn:H'; [|reflexivity]. apply keqb_spec in H'. rewrite <- H. symmetry. apply keqb_spec.
      transitivity (kdiv (beta *! x) beta); [|rewrite H']; field; exact beta_0.
  Qed.
  Lemma slope_beta l x y x' : slope_point K kmul ksub ((beta *! beta) *! l) (beta *! x) y (beta *! x') =
    let '(x3, y3) := slope_point K kmul ksub l x y x' in (beta *! x3, y3).
  Proof.
    unfold slope_point. cbn zeta. assert (X : (beta *! beta) *! l *! ((beta *! beta) *! l) -! beta *! x -! beta *! x' = beta *! (l *! l -! x -! x')).
    { transitivity (beta *! (beta *! (beta *! beta) *! (l *! l) -! x -! x')); [ring|]. rewrite cube. ring. }
    rewrite X. f_equal. transitivity (beta *! (beta *! beta) *! (l *! (x -! (l *! l -! x -! x'))) -! y); [ring|]. rewrite cube. ring.
  Qed.
  Lemma map_add P Q : map_beta (add P Q) = add (map_beta P) (map_beta Q).
  Proof.
    destruct P as [[x y]|]; [|reflexivity]. destruct Q as [[x' y']|]; [|reflexivity]. cbn [map_beta ec_add]. rewrite beta_eqb.
    destruct (keqb x x') eqn:Ex.
    - destruct (keqb y y') eqn:Ey; [|reflexivity]. cbn [ec_double map_beta]. destruct (keqb y k0) eqn:E0; [reflexivity|]. apply keqb_spec in Ex. subst x'.
      set (l := kdiv _ (y +! y)). replace (kdiv _ (y +! y)) with ((beta *! beta) *! l); [rewrite slope_beta; destruct (slope_point _ _ _ _ _ _ _); reflexivity|].
      unfold l. field. intros Z. assert (Hy : y = k0) by (apply (integral (k1 +! k1)); [rewrite <- Z; ring|exact two_nz]). apply keqb_spec in Hy. congruence.
    - set (l := kdiv (y' -! y) (x' -! x)). replace (kdiv (y' -! y) (beta *! x' -! beta *! x)) with ((beta *! beta) *! l); [rewrite slope_beta; destruct (slope_point _ _ _ _ _ _ _); reflexivity|].
      assert (Hd : x' -! x <> k0) by (intros Z; apply sub_0 in Z; subst; rewrite (proj2 (keqb_spec x x) eq_refl) in Ex; discriminate Ex).
      unfold l. transitivity ((beta *! (beta *! beta)) *! kdiv (y' -! y) (beta *! x' -! beta *! x)).
      + field. split; [|exact Hd]. intros Z. apply Hd. apply (integral beta); [rewrite <- Z; ring|exact beta_0].
      + rewrite cube. ring.
  Qed.
  Lemma map_3 P : on P = true -> add (map_beta P) (map_beta (map_beta P)) = neg P.
  Proof.
    destruct P as [[x y]|]; [|reflexivity]. intros H. cbn [map_beta ec_add ec_neg]. rewrite beta_eqb. rewrite (proj2 (keqb_spec y y) eq_refl).
    destruct (keqb x (beta *! x)) eqn:Ex.
    - assert (x = k0) as ->.
      { apply keqb_spec in Ex. apply (integral (beta -! k1)).
        - transitivity (beta *! x -! x); [ring|]. rewrite <- Ex. ring.
        - intros Z. apply beta_1, sub_0, Z. }
      cbn [ec_double]. cbn [on_curve] in H. apply keqb_spec in H. destruct (keqb y k0) eqn:Ey.
      + exfalso. apply keqb_spec in Ey. apply b_nz. subst y. transitivity (k0 *! (k0 *! k0) +! b); [ring|]. rewrite <- H. ring.
      + assert (Hy : y +! y <> k0) by (intros Z; assert (Hy : y = k0) by (apply (integral (k1 +! k1)); [rewrite <- Z; ring|exact two_nz]); apply keqb_spec in Hy; congruence).
        unfold slope_point. cbn zeta. f_equal. apply f_equal2; field; exact Hy.
    - assert (Hd : x -! beta *! x <> k0) by (intros Z; apply sub_0 in Z; apply keqb_spec in Z; congruence).
      assert (Hd' : beta *! (beta *! x) -! beta *! x <> k0).
      { intros Z. apply Hd. apply (integral beta); [|exact beta_0]. transitivity (k0 -! (beta *! (beta *! x) -! beta *! x)); [ring|]. rewrite Z. ring. }
      assert (L : kdiv (y -! y) (beta *! (beta *! x) -! beta *! x) = k0) by (field; exact Hd'). rewrite L.
      assert (X : k0 *! k0 -! beta *! x -! beta *! (beta *! x) = x).
      { transitivity (x -! x *! (k1 +! (beta +! beta *! beta))); [ring|]. rewrite beta_3. ring. }
      unfold slope_point. cbn zeta. rewrite X. f_equal. f_equal. ring.
  Qed.
  Definition phi (P : E) : E := exist _ (map_beta (proj1_sig P)) (map_on _ (proj2_sig P)).
  Lemma phi_hom P Q : phi (ga P Q) = ga (phi P) (phi Q).
  Proof. apply ext. exact (map_add (proj1_sig P) (proj1_sig Q)). Qed.
  Lemma phi_sum (P : E) : ga P (ga (phi P) (phi (phi P))) = gz.
  Proof. 
    assert (X : ga (phi P) (phi (phi P)) = gn P) by (apply ext; exact (map_3 (proj1_sig P) (proj2_sig P))). rewrite X. apply gn_r.
  Qed.
End Curve.
