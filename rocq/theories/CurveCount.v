(** The number of points of the curve of G1, and its subgroup of order r. *)
From Coq Require Import Field Znumtheory.
From Verif Require Import Base Constants Group Field Curve PointModel EncodingModel HashCurveModel CurveGroups Weierstrass CurveFinite Endo PointCert PointData CurveOrder FieldCount NormForm.

Add Field FqF3 : fq_field.
Definition g1_number : Z := r * G1_COFACTOR.
Lemma p_pos : 0 <= p. Proof. discriminate. Qed.
Lemma r_pos' : 0 <= r. Proof. discriminate. Qed.
Lemma code_bound x : (q_code x < Z.to_nat p)%nat.
Proof. unfold q_code. pose proof (fqv_range x) as [A B]. apply Z2Nat.inj_lt; [exact A|exact p_pos|exact B]. Qed.
Lemma decode_code_lt i : (i < Z.to_nat p)%nat -> q_code (q_decode i) = i.
Proof.
  intros H. unfold q_code, q_decode. apply Nat2Z.inj_lt in H. rewrite (Z2Nat.id p p_pos) in H. rewrite fqv_of, Z.mod_small by (split; [apply Nat2Z.is_nonneg|exact H]). apply Nat2Z.id.
Qed.
Lemma g1_finite_n n : (forall x, (q_code x < n)%nat) -> exists m, finite_order g1_curve m /\ m <= 2 * Z.of_nat n + 1.
Proof. intros H. refine (curve_finite fq q0 q1 qadd qmul qsub qopp qdiv qinv qeqb G1_B fq_field qeqb_spec q_two q_three g1_b_nz q_code q_decode q_decode_code n _). intros x. apply (ssrbool.introT ssrnat.ltP), H. Qed.
Lemma g1_finite : exists m, finite_order g1_curve m.
Proof. destruct (g1_finite_n _ code_bound) as (m & F & B). exists m. exact F. Qed.
Lemma g1_norm_n n m : (forall x, (q_code x < n)%nat) -> (forall i, (i < n)%nat -> q_code (q_decode i) = i) -> (exists k, Z.of_nat n = 6 * k + 1) -> finite_order g1_curve m ->
  exists a d, m = Z.of_nat n + 1 - a /\ a * a + 3 * d * d = 4 * Z.of_nat n.
Proof.
  intros H1 H2. refine (order_norm fq q0 q1 qadd qmul qsub qopp qdiv qinv qeqb G1_B fq_field qeqb_spec q_two q_three g1_b_nz q_code q_decode q_decode_code n _ _ m).
  - intros x. apply (ssrbool.introT ssrnat.ltP), H1.
  - intros i Hi. apply H2, (ssrbool.elimT ssrnat.ltP), Hi.
Qed.
Lemma six_p : exists k, p = 6 * k + 1. Proof. exists (p / 6). vm_compute. reflexivity. Qed.
Lemma g1_norm m : finite_order g1_curve m -> exists a d, m = p + 1 - a /\ a * a + 3 * d * d = 4 * p.
Proof. intros F. pose proof (g1_norm_n _ m code_bound decode_code_lt) as H. rewrite (Z2Nat.id p p_pos) in H. exact (H six_p F). Qed.
(** 4 p = T_PARAM^2 + 3 F_PARAM^2 *)
Definition T_PARAM : Z := X_PARAM + 1.
Definition F_PARAM : Z := 0x17f3622fba0948005c2d7510c00000002c58400000000000.
Lemma four_p : T_PARAM * T_PARAM + 3 * F_PARAM * F_PARAM = 4 * p. Proof. vm_compute. reflexivity. Qed.
Lemma p_gt_3 : 3 < p. Proof. vm_compute. reflexivity. Qed.
Lemma r_divides n : finite_order g1_curve n -> (r | n).
Proof.
  intros F. pose proof (fo_power g1_curve n F r 0 g1_gen prime_r ltac:(lia)) as S. cbn [Z.add] in S. rewrite Z.pow_1_r, Z.pow_0_r, smul_1 in S. exact (S gen_order gen_not_0).
Qed.
Lemma q_integral a b : qmul a b = q0 -> a = q0 \/ b = q0.
Proof.
  intros H. destruct (qeqb a q0) eqn:E; [left; apply qeqb_spec, E|right]. assert (N : a <> q0) by (intros Z; apply qeqb_spec in Z; congruence).
  transitivity (qdiv (qmul a b) a); [field; exact N|]. rewrite H. field. exact N.
Qed.
Lemma not_multiple n a : (r | n) -> 4 * n mod r = a -> a <> 0 -> False.
Proof. intros [k ->] E N. apply N. rewrite <- E. rewrite Z.mul_assoc. apply Z_mod_mult. Qed.
Lemma g1_candidates j k n a : unit_pair j k -> 4 * a = T_PARAM * j + 3 * F_PARAM * k -> n = p + 1 - a -> (r | n) -> n = g1_number.
Proof.
  intros U A -> D. assert (E : 4 * (p + 1 - a) = 4 * (p + 1) - (T_PARAM * j + 3 * F_PARAM * k)) by (rewrite <- A; ring).
  destruct U as [[-> [-> | ->]]|[[-> | ->] [-> | ->]]];
    try (exfalso; apply (not_multiple _ _ D eq_refl); rewrite E; vm_compute; discriminate).
  apply (Z.mul_reg_l _ _ 4); [discriminate|]. rewrite E. vm_compute. reflexivity.
Qed.
Lemma g1_order : finite_order g1_curve g1_number.
Proof.
  destruct g1_finite as (n & F). destruct (g1_norm n F) as (a & d & E & Q). destruct (norm_p_only p T_PARAM F_PARAM prime_p p_gt_3 four_p a d Q) as (j & k & U & A).
  rewrite <- (g1_candidates j k n a U A E (r_divides n F)). exact F.
Qed.

(** ** The subgroup of order r *)
Lemma search (A : Z -> Prop) (dec : forall i, {A i} + {~ A i}) n : (exists i, 0 <= i < Z.of_nat n /\ A i) \/ (forall i, 0 <= i < Z.of_nat n -> ~ A i).
Proof.
  induction n as [|n [(i & Hi & H)|H]].
  - right. intros i Hi. lia.
  - left. exists i. split; [lia|exact H].
  - destruct (dec (Z.of_nat n)) as [D|D]; [left; exists (Z.of_nat n); split; [lia|exact D]|]. right. intros i Hi. destruct (Z.eq_dec i (Z.of_nat n)) as [->|N]; [exact D|apply H; lia].
Qed.
(** In a group with n elements, n a multiple of r but not of r^2, the elements that r kills are the multiples of any one of them. *)
Lemma torsion_multiples (G : grp) n (g P : G) : finite_order G n -> ~ (r * r | n) -> smul r g = gz -> g <> gz -> (smul r P = gz <-> exists k, 0 <= k < r /\ P = smul k g).
Proof.
  intros F Hr Hg Ng. split.
  - intros H. assert (D : forall i, {P = smul i g} + {P <> smul i g}).
    { intros i. destruct (geqb P (smul i g)) eqn:E; [left; apply geqb_spec, E|right; apply geqb_neq, E]. }
    destruct (search _ D (Z.to_nat r)) as [(i & Hi & E)|N].
    + exists i. rewrite (Z2Nat.id r r_pos') in Hi. split; assumption.
    + exfalso. rewrite (Z2Nat.id r r_pos') in N. pose proof (fo_square _ _ F r 0 g P prime_r ltac:(lia)) as S. cbn [Z.add] in S. rewrite Z.pow_1_r, Z.pow_0_r, !smul_1 in S.
      apply Hr, S; [exact Hg|exact Ng|exact H|]. intros a E. apply (N (a mod r)); [apply Z.mod_pos_bound; reflexivity|]. rewrite <- (eigen_mod r a g Hg). exact E.
  - intros (k & _ & ->). rewrite <- smul_mul, Z.mul_comm, smul_mul, Hg. apply smul_gz.
Qed.
Lemma g1_torsion (P : g1_curve) : smul r P = gz <-> exists k, 0 <= k < r /\ P = smul k g1_gen.
Proof.
  apply (torsion_multiples g1_curve g1_number g1_gen P g1_order); [|exact gen_order|exact gen_not_0].
  intros Y. apply Z.mod_divide in Y; [|discriminate]. vm_compute in Y. discriminate Y.
Qed.
