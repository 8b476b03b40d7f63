(** The number of points of the twist and its subgroup of order r. *)
From Coq Require Import Field Znumtheory.
From Verif Require Import Base Constants Group Field Curve PointModel EncodingModel HashCurveModel CurveGroups Weierstrass CurveFinite Endo FieldCount NormForm CurveCount CubeFacts PointCert2 TwistOrder.

Add Field FqF6 : fq_field.
Add Field Fq2F6 : fq2_field.
Definition g2_number : Z := r * G2_COFACTOR.
(** ** Finiteness and the norm form *)
Lemma pp_pos : 0 <= p * p. Proof. discriminate. Qed.
Lemma code2_aux q x y : 0 <= x < q -> 0 <= y < q -> 0 <= x * q + y < q * q. Proof. nia. Qed.
Lemma code2_div q x y : 0 <= y < q -> (x * q + y) / q = x. Proof. intros H. symmetry. apply (Z.div_unique_pos _ _ x y H). ring. Qed.
Lemma code2_range x : 0 <= fqv (fst x) * p + fqv (snd x) < p * p. Proof. exact (code2_aux p _ _ (fqv_range (fst x)) (fqv_range (snd x))). Qed.
Lemma code2_bound x : (q2_code x < Z.to_nat (p * p))%nat.
Proof. pose proof (code2_range x) as [H0 H1]. unfold q2_code. apply Z2Nat.inj_lt; [exact H0|exact pp_pos|exact H1]. Qed.
Lemma decode2_aux q i : 0 < q -> 0 <= i < q * q -> 0 <= i / q < q.
Proof. intros Hq [H0 H1]. split; [apply Z.div_pos; [exact H0|exact Hq]|apply Z.div_lt_upper_bound; [exact Hq|exact H1]]. Qed.
Lemma p_lt_0 : 0 < p. Proof. reflexivity. Qed.
Lemma decode2_code i : (i < Z.to_nat (p * p))%nat -> q2_code (q2_decode i) = i.
Proof.
  intros H. apply Nat2Z.inj_lt in H. rewrite (Z2Nat.id (p * p) pp_pos) in H. unfold q2_code, q2_decode. cbn [fst snd].
  pose proof (decode2_aux p (Z.of_nat i) p_lt_0 (conj (Nat2Z.is_nonneg i) H)) as B. rewrite !fqv_of, (Z.mod_small _ _ B), Z.mul_comm.
  rewrite <- (Z.div_mod (Z.of_nat i) p) by discriminate. apply Nat2Z.id.
Qed.
Lemma g2_finite_n n : (forall x, (q2_code x < n)%nat) -> exists m, finite_order g2_curve m /\ m <= 2 * Z.of_nat n + 1.
Proof. intros H. refine (curve_finite fq2 q2_0 q2_1 q2add q2mul q2sub q2opp q2div q2inv q2eqb TWIST_B fq2_field q2eqb_spec q2_two q2_three g2_b_nz q2_code q2_decode q2_decode_code n _). intros x. apply (ssrbool.introT ssrnat.ltP), H. Qed.
Lemma g2_finite : exists m, finite_order g2_curve m.
Proof. destruct (g2_finite_n _ code2_bound) as (m & F & B). exists m. exact F. Qed.
Lemma g2_norm_n n m : (forall x, (q2_code x < n)%nat) -> (forall i, (i < n)%nat -> q2_code (q2_decode i) = i) -> (exists k, Z.of_nat n = 6 * k + 1) -> finite_order g2_curve m ->
  exists a d, m = Z.of_nat n + 1 - a /\ a * a + 3 * d * d = 4 * Z.of_nat n.
Proof.
  intros H1 H2. refine (order_norm fq2 q2_0 q2_1 q2add q2mul q2sub q2opp q2div q2inv q2eqb TWIST_B fq2_field q2eqb_spec q2_two q2_three g2_b_nz q2_code q2_decode q2_decode_code n _ _ m).
  - intros x. apply (ssrbool.introT ssrnat.ltP), H1.
  - intros i Hi. apply H2, (ssrbool.elimT ssrnat.ltP), Hi.
Qed.
Lemma six_pp : exists k, p * p = 6 * k + 1. Proof. exists (p * p / 6). vm_compute. reflexivity. Qed.
Lemma g2_norm m : finite_order g2_curve m -> exists a d, m = p * p + 1 - a /\ a * a + 3 * d * d = 4 * (p * p).
Proof. intros F. pose proof (g2_norm_n _ m code2_bound decode2_code) as H. rewrite (Z2Nat.id (p * p) pp_pos) in H. exact (H six_pp F). Qed.
(** ** r divides the order, 2 does not *)
Lemma gen2_not_0 : g2_gen <> gz.
Proof. intros H. apply (f_equal g2_to) in H. rewrite g2_to_gen in H. assert (N : g2_to gz = None) by reflexivity. rewrite N in H. unfold g2_generator in H. discriminate H. Qed.
Lemma r_divides2 n : finite_order g2_curve n -> (r | n).
Proof.
  intros F. pose proof (fo_power g2_curve n F r 0 g2_gen prime_r ltac:(lia)) as S. cbn [Z.add] in S. rewrite Z.pow_1_r, Z.pow_0_r, smul_1 in S. exact (S gen2_order gen2_not_0).
Qed.
Lemma norm_opp a : q2norm (q2opp a) = q2norm a. Proof. destruct a. unfold q2norm, q2opp. cbn [fst snd]. ring. Qed.
Lemma no_root x : q2mul x (q2mul x x) <> q2opp TWIST_B.
Proof.
  intros H. apply (f_equal q2norm) in H. rewrite !q2norm_mul, norm_opp in H. apply (twist_b_noncube (q2norm x)). rewrite <- H. ring.
Qed.
Lemma neg_self P : on_twist P = true -> P = g2_neg P -> P = None.
Proof.
  destruct P as [[x y]|]; [|reflexivity]. intros O E. exfalso. unfold g2_neg, ec_neg in E. assert (Y : y = q2opp y) by congruence. clear E.
  assert (Y0 : y = q2_0).
  { apply (q2_integral (q2add q2_1 q2_1)); [|exact q2_two]. transitivity (q2add y y); [ring|]. rewrite Y at 2. ring. }
  unfold on_twist, on_curve in O. apply q2eqb_spec in O. apply (no_root x). transitivity (q2sub (q2add (q2mul x (q2mul x x)) TWIST_B) TWIST_B); [ring|]. rewrite <- O, Y0. ring.
Qed.
Lemma two_torsion (P : g2_curve) : smul 2 P = gz -> P = gz.
Proof.
  intros H. change 2 with (1 + 1) in H. rewrite smul_add, smul_1 in H. apply gn_unique in H. apply g2_to_eq. apply neg_self; [apply g2_to_on|]. rewrite <- g2_to_gn. apply f_equal. exact H.
Qed.
Lemma g2_odd n : finite_order g2_curve n -> ~ (2 | n).
Proof.
  intros F D. pose proof (fo_bound g2_curve n F 2 0 1 [gz] prime_2 ltac:(lia) ltac:(lia)) as B. cbn [Z.add] in B. rewrite !Z.pow_1_r, !Z.pow_0_r in B.
  assert (2 <= 1); [|lia]. apply B; [| |exact D].
  - intros P H. rewrite smul_1. apply two_torsion, H.
  - intros P H. left. symmetry. apply two_torsion, H.
Qed.
(** ** The order *)
Lemma not_multiple2 c n a : (r | n) -> c * n mod r = a -> a <> 0 -> False.
Proof. intros [k ->] E N. apply N. rewrite <- E. rewrite Z.mul_assoc. apply Z_mod_mult. Qed.
Lemma eighth m v : 8 * m = v -> m = v / 8. Proof. intros <-. rewrite Z.mul_comm. symmetry. apply Z_div_mult. reflexivity. Qed.
Definition big_t : Z := T_PARAM * T_PARAM - 3 * F_PARAM * F_PARAM.
Definition big_f : Z := 6 * T_PARAM * F_PARAM.
Lemma g2_candidates j k n a : unit_pair j k -> 2 * a = p * j \/ 8 * a = big_t * j + big_f * k -> n = p * p + 1 - a -> (r | n) -> ~ (2 | n) -> n = g2_number.
Proof.
  intros U [A|A] -> D O.
  - assert (E : 2 * (p * p + 1 - a) = 2 * (p * p + 1) - p * j) by (rewrite <- A; ring).
    destruct U as [[-> [-> | ->]]|[[-> | ->] [-> | ->]]]; exfalso; apply (not_multiple2 2 _ _ D eq_refl); rewrite E; vm_compute; discriminate.
  - assert (E : 8 * (p * p + 1 - a) = 8 * (p * p + 1) - (big_t * j + big_f * k)) by (rewrite <- A; ring).
    destruct U as [[-> [-> | ->]]|[[-> | ->] [-> | ->]]];
    first [exfalso; apply (not_multiple2 8 _ _ D eq_refl); rewrite E; vm_compute; discriminate
          |apply (Z.mul_reg_l _ _ 8); [discriminate|]; rewrite E; vm_compute; reflexivity
          |idtac].
    all: exfalso; apply O; rewrite (eighth _ _ E);
      apply Z.mod_divide; [discriminate|]; vm_compute; reflexivity.
Qed.
Lemma g2_order : finite_order g2_curve g2_number.
Proof.
  destruct g2_finite as (n & F). destruct (g2_norm n F) as (a & d & E & Q). destruct (norm_pp p T_PARAM F_PARAM prime_p p_gt_3 four_p a d Q) as (j & k & U & A).
  rewrite <- (g2_candidates j k n a U A E (r_divides2 n F) (g2_odd n F)). exact F.
Qed.
Lemma g2_torsion (P : g2_curve) : smul r P = gz <-> exists k, 0 <= k < r /\ P = smul k g2_gen.
Proof.
  apply (torsion_multiples g2_curve g2_number g2_gen P g2_order); [|exact gen2_order|exact gen2_not_0].
  intros Y. apply Z.mod_divide in Y; [|discriminate]. vm_compute in Y. discriminate Y.
Qed.
