(** The twist of G2: its generator has order r, and it has r * h points, h the cofactor. *)
From Coq Require Import Field Znumtheory.
From Verif Require Import Base Constants Group Field Curve PointModel EncodingModel HashCurveModel CurveGroups Weierstrass CurveFinite Endo PointCert PointData CurveOrder FieldCount NormForm
  CurveCount CubeFacts PointCert2 TwistData Frobenius.

Add Field FqF5 : fq_field.
Add Field Fq2F5 : fq2_field.
(** ** The endomorphisms *)
Definition beta2 : fq2 := (fq_of (KAPPA * KAPPA * (KAPPA * KAPPA)), q0).
Definition kappa : fq2 := (fq_of KAPPA, q0).
Definition conj2 (a : fq2) : fq2 := (fst a, qopp (snd a)).
Lemma conj_add a b : conj2 (q2add a b) = q2add (conj2 a) (conj2 b). Proof. destruct a, b. unfold conj2, q2add. cbn [fst snd]. apply f_equal2; [reflexivity|ring]. Qed.
Lemma conj_mul a b : conj2 (q2mul a b) = q2mul (conj2 a) (conj2 b). Proof. destruct a, b. unfold conj2, q2mul. cbn [fst snd]. apply f_equal2; ring. Qed.
Lemma conj_1 : conj2 q2_1 = q2_1. Proof. unfold conj2, q2_1. cbn [fst snd]. apply f_equal2; [reflexivity|ring]. Qed.
Lemma conj_conj a : conj2 (conj2 a) = a. Proof. destruct a. unfold conj2. cbn [fst snd]. apply f_equal2; [reflexivity|ring]. Qed.
Lemma fq2_ext (a b : fq2) : fqv (fst a) = fqv (fst b) -> fqv (snd a) = fqv (snd b) -> a = b.
Proof. destruct a, b. cbn [fst snd]. intros H0 H1. f_equal; apply fq_ext; assumption. Qed.
Lemma kappa_nz : kappa <> q2_0. Proof. intros H. apply (f_equal (fun x => fqv (fst x))) in H. vm_compute in H. discriminate H. Qed.
Lemma kappa_b : q2mul (q2mul (q2mul (q2mul kappa kappa) kappa) (q2mul (q2mul kappa kappa) kappa)) (conj2 TWIST_B) = TWIST_B.
Proof. apply fq2_ext; vm_compute; reflexivity. Qed.
Lemma beta2_1 : beta2 <> q2_1. Proof. intros H. apply (f_equal (fun x => fqv (fst x))) in H. vm_compute in H. discriminate H. Qed.
Lemma beta2_3 : q2add q2_1 (q2add beta2 (q2mul beta2 beta2)) = q2_0. Proof. apply fq2_ext; vm_compute; reflexivity. Qed.
Definition phi2 : g2_curve -> g2_curve :=
  phi fq2 q2_0 q2_1 q2add q2mul q2sub q2opp q2div q2inv q2eqb TWIST_B fq2_field q2eqb_spec q2_two q2_three g2_b_nz q2_code q2_decode q2_decode_code beta2 beta2_3.
Lemma phi2_add P Q : phi2 (ga P Q) = ga (phi2 P) (phi2 Q). Proof. apply phi_hom. Qed.
Lemma phi2_3 (P : g2_curve) : ga P (ga (phi2 P) (phi2 (phi2 P))) = gz. Proof. apply phi_sum. exact beta2_1. Qed.
Lemma phi2_to P : g2_to (phi2 P) = match g2_to P with None => None | Some (x, y) => Some (q2mul beta2 x, y) end.
Proof. reflexivity. Qed.
(** (x, y) -> (kappa^2 conj(x), kappa^3 conj(y)) *)
Definition psi2 : g2_curve -> g2_curve :=
  psi fq2 q2_0 q2_1 q2add q2mul q2sub q2opp q2div q2inv q2eqb TWIST_B fq2_field q2eqb_spec q2_two q2_three g2_b_nz q2_code q2_decode q2_decode_code conj2 kappa conj_add conj_mul kappa_b.
Lemma psi2_add P Q : psi2 (ga P Q) = ga (psi2 P) (psi2 Q). Proof. apply psi_hom; [exact conj_1|exact kappa_nz]. Qed.
Lemma psi2_to P : g2_to (psi2 P) = match g2_to P with None => None | Some (x, y) => Some (q2mul (q2mul kappa kappa) (conj2 x), q2mul (q2mul (q2mul kappa kappa) kappa) (conj2 y)) end.
Proof. reflexivity. Qed.
Lemma g2_to_eq P Q : g2_to P = g2_to Q -> P = Q. Proof. intros H. rewrite <- (g2_of_to P), H. apply g2_of_to. Qed.
Lemma g2_to_gn P : g2_to (gn P) = g2_neg (g2_to P). Proof. reflexivity. Qed.
Lemma kappa_2 : q2mul (q2mul kappa kappa) (conj2 (q2mul kappa kappa)) = beta2. Proof. apply fq2_ext; vm_compute; reflexivity. Qed.
Lemma kappa_3 : q2mul (q2mul (q2mul kappa kappa) kappa) (conj2 (q2mul (q2mul kappa kappa) kappa)) = q2opp q2_1. Proof. apply fq2_ext; vm_compute; reflexivity. Qed.
Lemma conj_pair a b x : q2mul a (conj2 (q2mul b (conj2 x))) = q2mul (q2mul a (conj2 b)) x.
Proof. rewrite conj_mul, conj_conj. ring. Qed.
Lemma psi2_psi2 (P : g2_curve) : psi2 (psi2 P) = gn (phi2 P).
Proof.
  apply g2_to_eq. rewrite !psi2_to, g2_to_gn, phi2_to. destruct (g2_to P) as [[x y]|]; [|reflexivity]. unfold g2_neg, ec_neg. apply f_equal, f_equal2.
  - etransitivity; [apply conj_pair|]. exact (f_equal (fun t => q2mul t x) kappa_2).
  - etransitivity; [apply conj_pair|]. etransitivity; [exact (f_equal (fun t => q2mul t y) kappa_3)|]. ring.
Qed.
(** ** The generator: x gen = psi gen, so x^2 gen = psi (psi gen) = - phi gen and r gen = (x^4 - x^2 + 1) gen = 0 *)
Lemma gen2_eq : g2_generator = pt2 gen2_x gen2_y.
Proof. unfold g2_generator, pt2. apply f_equal, f_equal2; apply fq2_ext; vm_compute; reflexivity. Qed.
Lemma gen2_on : on_twist (pt2 gen2_x gen2_y) = true. Proof. rewrite <- gen2_eq. exact g2_generator_on. Qed.
Lemma gen2_checked : multiple_by2 gen2_cert X_PARAM gen2_x gen2_y gen2_X gen2_Y = true. Proof. vm_compute. reflexivity. Qed.
Lemma gen2_psi : smul X_PARAM g2_gen = psi2 g2_gen.
Proof.
  destruct (multiple_ok2 _ _ _ _ _ _ gen2_on gen2_checked) as (O & E). unfold g2_gen. rewrite gen2_eq, E. apply g2_to_eq. rewrite psi2_to, (g2_to_of _ gen2_on), (g2_to_of _ O).
  unfold pt2. apply f_equal, f_equal2; apply fq2_ext; vm_compute; reflexivity.
Qed.
Lemma gen2_eigen : smul (X_PARAM * X_PARAM) g2_gen = gn (phi2 g2_gen).
Proof. rewrite smul_mul, gen2_psi, <- (phi_smul psi2 psi2_add), gen2_psi. apply psi2_psi2. Qed.
Lemma gen2_order : smul r g2_gen = gz.
Proof.
  assert (R : r = (X_PARAM * X_PARAM) * (X_PARAM * X_PARAM) - X_PARAM * X_PARAM + 1) by (vm_compute; reflexivity).
  rewrite R. exact (eigen_sum phi2 phi2_add phi2_3 _ g2_gen gen2_eigen).
Qed.
