(** The generator of G1 has order r. *)
From Coq Require Import Field Znumtheory.
From Verif Require Import Base Constants Group Field Curve PointModel EncodingModel HashCurveModel CurveGroups Weierstrass CurveFinite Endo PointCert PointData.

Add Field FqF2 : fq_field.
(** ** The endomorphism *)
Lemma beta_1 : fq_of BETA <> q1. Proof. intros H. apply (f_equal fqv) in H. vm_compute in H. discriminate H. Qed.
Lemma beta_3 : qadd q1 (qadd (fq_of BETA) (qmul (fq_of BETA) (fq_of BETA))) = q0.
Proof. apply fq_ext. vm_compute. reflexivity. Qed.
Definition phi1 : g1_curve -> g1_curve :=
  phi fq q0 q1 qadd qmul qsub qopp qdiv qinv qeqb G1_B fq_field qeqb_spec q_two q_three g1_b_nz q_code q_decode q_decode_code (fq_of BETA) beta_3.
Lemma phi1_add P Q : phi1 (ga P Q) = ga (phi1 P) (phi1 Q). Proof. apply phi_hom. Qed.
Lemma phi1_3 (P : g1_curve) : ga P (ga (phi1 P) (phi1 (phi1 P))) = gz. Proof. apply phi_sum. exact beta_1. Qed.
Lemma phi1_to P : g1_to (phi1 P) = match g1_to P with None => None | Some (x, y) => Some (qmul (fq_of BETA) x, y) end.
Proof. reflexivity. Qed.
Lemma g1_to_0 : g1_to gz = None. Proof. reflexivity. Qed.
Lemma g1_to_gn P : g1_to (gn P) = g1_neg (g1_to P). Proof. reflexivity. Qed.
Lemma fq_p : fq_of p = q0. Proof. apply fq_ext. vm_compute. reflexivity. Qed.
Lemma g1_to_eq P Q : g1_to P = g1_to Q -> P = Q. Proof. intros H. rewrite <- (g1_of_to P), H. apply g1_of_to. Qed.

(** ** Points given by numbers *)
Lemma pt_not_0 x y : on_g1 (pt x y) = true -> g1_of (pt x y) <> gz.
Proof. intros H Z. apply (f_equal g1_to) in Z. rewrite g1_to_of in Z by exact H. intros. rewrite g1_to_0 in Z. discriminate Z. Qed.
Lemma pt_neg x y : on_g1 (pt x y) = true -> g1_of (pt x (p - y)) = gn (g1_of (pt x y)).
Proof.
  intros H. rewrite <- g1_of_neg. apply f_equal. unfold pt, g1_neg, ec_neg. apply f_equal, f_equal2; [reflexivity|]. rewrite of_sub, fq_p. ring.
Qed.
(** [killed]: (l - 1) T = - T *)
Lemma killed cert l x y : multiple_by cert (l - 1) x y x (p - y) = true -> smul l (g1_of (pt x y)) = gz /\ g1_of (pt x y) <> gz.
Proof.
  intros H. apply multiple_ok in H as (O & _ & E). split; [|apply pt_not_0, O]. replace l with (Z.succ (l - 1)) by lia. rewrite smul_succ, E, pt_neg by exact O. apply gn_l.
Qed.
(** ** The generator: x^2 gen = - phi gen, so r gen = (x^4 - x^2 + 1) gen = 0 *)
Definition gen_x0 : Z := 81937999373150964239938255573465948239988671502647976594219695644855304257327692006745978603320413799295628339695.
Definition gen_y0 : Z := 241266749859715473739788878240585681733927191168601896383759122102112907357779751001206799952863815012735208165030.
Lemma gen_on : on_g1 (pt gen_x0 gen_y0) = true. Proof. exact g1_generator_on. Qed.
Lemma gen_eigen : smul (X_PARAM * X_PARAM) g1_gen = gn (phi1 g1_gen).
Proof.
  assert (C1 : multiple_by gen_x X_PARAM gen_x0 gen_y0 gen_x_x gen_x_y = true) by (vm_compute; reflexivity).
  assert (C2 : multiple_by gen_xx X_PARAM gen_x_x gen_x_y (BETA * gen_x0 mod p) (p - gen_y0) = true) by (vm_compute; reflexivity).
  apply multiple_ok in C1 as (_ & _ & E1). apply multiple_ok in C2 as (_ & O2 & E2).
  change g1_gen with (g1_of (pt gen_x0 gen_y0)). rewrite smul_mul, E1, E2. apply g1_to_eq. rewrite g1_to_of by exact O2.
  rewrite g1_to_gn, phi1_to, g1_to_of by exact gen_on.
  unfold pt, g1_neg, ec_neg. apply f_equal, f_equal2.
  - rewrite <- of_mul. apply fq_ext. rewrite !fqv_of. apply Z.mod_mod. discriminate.
  - rewrite of_sub, fq_p. ring.
Qed.
Lemma gen_order : smul r g1_gen = gz.
Proof.
  assert (R : r = (X_PARAM * X_PARAM) * (X_PARAM * X_PARAM) - X_PARAM * X_PARAM + 1) by (vm_compute; reflexivity).
  rewrite R. exact (eigen_sum phi1 phi1_add phi1_3 _ g1_gen gen_eigen).
Qed.
Lemma gen_not_0 : g1_gen <> gz. Proof. exact (pt_not_0 _ _ gen_on). Qed.
