(** The points of the two curves of BLS12-377 as groups: [g1_curve], the curve y^2 = x^3 + 1 over F_p, and
    [g2_curve], its twist over F_p2 (ark-bls12-377, a dependency).  These are the types the code calls
    [G1Projective] and [G2Projective]: all points of the curves, whether in the subgroups of order r or not. *)
From Coq Require Import Field Eqdep_dec.
From Verif Require Import Base Constants Group Field Curve PointModel EncodingModel Weierstrass.

(** ** A group from the points of a curve *)
Section CurveGroup.
  Context (K : Type) (k0 k1 : K) (kadd kmul ksub : K -> K -> K) (kopp : K -> K) (kdiv : K -> K -> K) (kinv : K -> K).
  Context (keqb : K -> K -> bool) (b : K).
  Hypothesis Kfield : field_theory k0 k1 kadd kmul ksub kopp kdiv kinv (@eq K).
  Hypothesis keqb_spec : forall x y, keqb x y = true <-> x = y.
  Hypothesis two_nz : kadd k1 k1 <> k0.
  Hypothesis three_nz : kadd k1 (kadd k1 k1) <> k0.
  Hypothesis b_nz : b <> k0.
  Context (code : K -> nat) (decode : nat -> K) (decode_code : forall x, decode (code x) = x).
  Add Field KF : Kfield.
  Notation on := (on_curve K kadd kmul keqb b).
  Notation add := (ec_add K k0 k1 kadd kmul ksub kdiv keqb).
  Notation neg := (ec_neg K kopp).

  Definition curve_point := { P : apoint K | on P = true }.
  Lemma point_ext (P Q : curve_point) : proj1_sig P = proj1_sig Q -> P = Q.
  Proof. destruct P as [P HP], Q as [Q HQ]. cbn. intros ->. f_equal. apply UIP_dec, Bool.bool_dec. Qed.
  Definition point_0 : curve_point := exist _ None eq_refl.
  Definition point_add (P Q : curve_point) : curve_point :=
    exist _ (add (proj1_sig P) (proj1_sig Q))
      (ec_add_on K k0 k1 kadd kmul ksub kopp kdiv kinv keqb b Kfield keqb_spec two_nz _ _ (proj2_sig P) (proj2_sig Q)).
  Definition point_neg (P : curve_point) : curve_point :=
    exist _ (neg (proj1_sig P)) (ec_neg_on K k0 k1 kadd kmul ksub kopp kdiv kinv keqb b Kfield keqb_spec _ (proj2_sig P)).
  Definition apoint_eqb (P Q : apoint K) : bool :=
    match P, Q with
    | None, None => true
    | Some (x, y), Some (x', y') => keqb x x' && keqb y y'
    | _, _ => false
    end.
  Lemma apoint_eqb_spec P Q : apoint_eqb P Q = true <-> P = Q.
  Proof.
    destruct P as [[x y]|], Q as [[x' y']|]; cbn [apoint_eqb]; try (split; congruence).
    rewrite andb_true_iff, !keqb_spec. split; [intros [-> ->]; reflexivity|intros H; injection H; auto].
  Qed.
  Definition curve_grp : grp.
  Proof.
    refine (Grp curve_point point_0 point_add point_neg (fun P Q => apoint_eqb (proj1_sig P) (proj1_sig Q)) _ _ _ _ _).
    - intros [P HP] [Q HQ] [S HS]. apply point_ext. cbn [point_add proj1_sig].
      exact (add_assoc K k0 k1 kadd kmul ksub kopp kdiv kinv keqb b Kfield keqb_spec two_nz three_nz b_nz code decode decode_code P Q S HP HQ HS).
    - intros [P HP] [Q HQ]. apply point_ext. cbn [point_add proj1_sig].
      exact (ec_add_comm K k0 k1 kadd kmul ksub kopp kdiv kinv keqb b Kfield keqb_spec P Q HP HQ).
    - intros [P HP]. apply point_ext. reflexivity.
    - intros [P HP]. apply point_ext. cbn [point_add point_neg point_0 proj1_sig].
      pose proof (ec_neg_on K k0 k1 kadd kmul ksub kopp kdiv kinv keqb b Kfield keqb_spec P HP) as HN.
      rewrite (ec_add_comm K k0 k1 kadd kmul ksub kopp kdiv kinv keqb b Kfield keqb_spec _ _ HN HP).
      exact (ec_add_neg K k0 k1 kadd kmul ksub kopp kdiv kinv keqb b Kfield keqb_spec two_nz P HP).
    - intros P Q. rewrite apoint_eqb_spec. split; [apply point_ext|intros ->; reflexivity].
  Defined.

  (** A point as an element; what is not on the curve counts as the point at infinity. *)
  Definition of_point (P : apoint K) : curve_grp :=
    match Bool.bool_dec (on P) true with left H => exist _ P H | right _ => point_0 end.
  Definition to_point (P : curve_grp) : apoint K := proj1_sig P.
  Lemma to_on P : on (to_point P) = true. Proof. exact (proj2_sig P). Qed.
  Lemma of_to P : of_point (to_point P) = P.
  Proof.
    unfold of_point. destruct (Bool.bool_dec _ _) as [H|H]; [apply point_ext; reflexivity|].
    exfalso. apply H, to_on.
  Qed.
  Lemma to_of P : on P = true -> to_point (of_point P) = P.
  Proof. intros H. unfold of_point. destruct (Bool.bool_dec _ _) as [H'|H']; [reflexivity|congruence]. Qed.
  Lemma to_inj P Q : to_point P = to_point Q -> P = Q. Proof. apply point_ext. Qed.
  Lemma of_none : of_point None = gz. Proof. apply to_inj. reflexivity. Qed.
  Lemma of_neg P : of_point (neg P) = gn (of_point P).
  Proof.
    apply to_inj. destruct (Bool.bool_dec (on P) true) as [H|H].
    - rewrite to_of by (exact (ec_neg_on K k0 k1 kadd kmul ksub kopp kdiv kinv keqb b Kfield keqb_spec P H)).
      cbn [gn curve_grp point_neg to_point proj1_sig]. rewrite (to_of P H : proj1_sig (of_point P) = P). reflexivity.
    - assert (HN : on (neg P) <> true).
      { intros HN. apply H. apply (ec_neg_on K k0 k1 kadd kmul ksub kopp kdiv kinv keqb b Kfield keqb_spec) in HN.
        destruct P as [[x y]|]; [|exact HN]. cbn [ec_neg] in HN.
        replace (kopp (kopp y)) with y in HN; [exact HN|]. ring. }
      unfold of_point at 1. destruct (Bool.bool_dec (on (neg P)) true) as [X|_]; [contradiction|].
      unfold of_point. destruct (Bool.bool_dec (on P) true) as [X|_]; [contradiction|]. reflexivity.
  Qed.
  Lemma to_add P Q : to_point (ga P Q) = add (to_point P) (to_point Q). Proof. reflexivity. Qed.
  Lemma to_sum l : to_point (gsum l) = ec_sum K k0 k1 kadd kmul ksub kdiv keqb (map to_point l).
  Proof.
    unfold gsum, ec_sum. assert (G : forall l (P : curve_grp), to_point (fold_left ga l P) = fold_left add (map to_point l) (to_point P)).
    { clear l. induction l as [|Q l IH]; intros P; [reflexivity|]. cbn [fold_left map]. rewrite IH. reflexivity. }
    apply G.
  Qed.
End CurveGroup.

(** ** The curve and its twist *)
Definition q_code (x : fq) : nat := Z.to_nat (fqv x).
Definition q_decode (n : nat) : fq := fq_of (Z.of_nat n).
Lemma q_decode_code x : q_decode (q_code x) = x.
Proof.
  apply fq_ext. unfold q_decode, q_code. rewrite fqv_of, Z2Nat.id by apply fqv_range. apply fqv_mod.
Qed.
Definition q2_code (x : fq2) : nat := Z.to_nat (fqv (fst x) * p + fqv (snd x)).
Definition q2_decode (n : nat) : fq2 := (fq_of (Z.of_nat n / p), fq_of (Z.of_nat n)).
Lemma q2_decode_code x : q2_decode (q2_code x) = x.
Proof.
  destruct x as [x y]. unfold q2_decode, q2_code. cbn [fst snd]. pose proof (fqv_range x). pose proof (fqv_range y).
  assert (0 <= fqv x * p) by (apply Z.mul_nonneg_nonneg; lia).
  rewrite Z2Nat.id by lia. apply f_equal2; apply fq_ext; rewrite fqv_of.
  - rewrite Z.div_add_l by lia. rewrite (Z.div_small (fqv y)) by lia. rewrite Z.add_0_r. apply fqv_mod.
  - rewrite Z.add_comm, Z.mod_add by lia. apply fqv_mod.
Qed.
Lemma q_two : qadd q1 q1 <> q0. Proof. intros H. apply (f_equal fqv) in H. vm_compute in H. discriminate H. Qed.
Lemma q_three : qadd q1 (qadd q1 q1) <> q0. Proof. intros H. apply (f_equal fqv) in H. vm_compute in H. discriminate H. Qed.
Lemma g1_b_nz : G1_B <> q0. Proof. intros H. apply (f_equal fqv) in H. vm_compute in H. discriminate H. Qed.
Lemma q2_two : q2add q2_1 q2_1 <> q2_0. Proof. intros H. apply (f_equal (fun x => fqv (fst x))) in H. vm_compute in H. discriminate H. Qed.
Lemma q2_three : q2add q2_1 (q2add q2_1 q2_1) <> q2_0. Proof. intros H. apply (f_equal (fun x => fqv (fst x))) in H. vm_compute in H. discriminate H. Qed.
Lemma g2_b_nz : TWIST_B <> q2_0. Proof. intros H. apply (f_equal (fun x => fqv (snd x))) in H. vm_compute in H. discriminate H. Qed.

Definition g1_add : g1_point -> g1_point -> g1_point := ec_add fq q0 q1 qadd qmul qsub qdiv qeqb.
Definition g1_sum : list g1_point -> g1_point := ec_sum fq q0 q1 qadd qmul qsub qdiv qeqb.
Definition g1_curve : grp := curve_grp fq q0 q1 qadd qmul qsub qopp qdiv qinv qeqb G1_B fq_field qeqb_spec q_two q_three g1_b_nz q_code q_decode q_decode_code.
Definition g2_curve : grp := curve_grp fq2 q2_0 q2_1 q2add q2mul q2sub q2opp q2div q2inv q2eqb TWIST_B fq2_field q2eqb_spec q2_two q2_three g2_b_nz q2_code q2_decode q2_decode_code.
Definition g1_of : g1_point -> g1_curve := of_point fq q0 q1 qadd qmul qsub qopp qdiv qinv qeqb G1_B fq_field qeqb_spec q_two q_three g1_b_nz q_code q_decode q_decode_code.
Definition g2_of : g2_point -> g2_curve := of_point fq2 q2_0 q2_1 q2add q2mul q2sub q2opp q2div q2inv q2eqb TWIST_B fq2_field q2eqb_spec q2_two q2_three g2_b_nz q2_code q2_decode q2_decode_code.
Definition g1_to (P : g1_curve) : g1_point := proj1_sig P.
Definition g2_to (P : g2_curve) : g2_point := proj1_sig P.

Lemma g1_to_on P : on_g1 (g1_to P) = true. Proof. exact (proj2_sig P). Qed.
Lemma g2_to_on P : on_twist (g2_to P) = true. Proof. exact (proj2_sig P). Qed.
Lemma g1_of_to P : g1_of (g1_to P) = P. Proof. apply of_to. Qed.
Lemma g2_of_to P : g2_of (g2_to P) = P. Proof. apply of_to. Qed.
Lemma g1_to_of P : on_g1 P = true -> g1_to (g1_of P) = P. Proof. apply to_of. Qed.
Lemma g2_to_of P : on_twist P = true -> g2_to (g2_of P) = P. Proof. apply to_of. Qed.
Lemma g1_to_inj P Q : g1_to P = g1_to Q -> P = Q. Proof. apply to_inj. Qed.
Lemma g2_to_inj P Q : g2_to P = g2_to Q -> P = Q. Proof. apply to_inj. Qed.
Lemma g1_of_none : g1_of None = gz. Proof. apply of_none. Qed.
Lemma g2_of_none : g2_of None = gz. Proof. apply of_none. Qed.
Lemma g1_of_neg P : g1_of (g1_neg P) = gn (g1_of P). Proof. apply of_neg. Qed.
Lemma g2_of_neg P : g2_of (g2_neg P) = gn (g2_of P). Proof. apply of_neg. Qed.
Lemma g1_to_add P Q : g1_to (ga P Q) = g1_add (g1_to P) (g1_to Q). Proof. reflexivity. Qed.
Lemma g2_to_add P Q : g2_to (ga P Q) = g2_add (g2_to P) (g2_to Q). Proof. reflexivity. Qed.
Lemma g1_to_sum l : g1_to (gsum l) = g1_sum (map g1_to l). Proof. apply to_sum. Qed.
Lemma g2_to_sum l : g2_to (gsum l) = g2_sum (map g2_to l). Proof. apply to_sum. Qed.

(** ** The generators (ark-bls12-377, g1.rs and g2.rs) *)
Definition g1_generator : g1_point := Some
  (fq_of 81937999373150964239938255573465948239988671502647976594219695644855304257327692006745978603320413799295628339695,
   fq_of 241266749859715473739788878240585681733927191168601896383759122102112907357779751001206799952863815012735208165030).
Lemma g1_generator_on : on_g1 g1_generator = true. Proof. vm_compute. reflexivity. Qed.
Lemma g2_generator_on : on_twist g2_generator = true. Proof. vm_compute. reflexivity. Qed.
Definition g1_gen : g1_curve := g1_of g1_generator.
Definition g2_gen : g2_curve := g2_of g2_generator.
Lemma g1_to_gen : g1_to g1_gen = g1_generator. Proof. apply g1_to_of, g1_generator_on. Qed.
Lemma g2_to_gen : g2_to g2_gen = g2_generator. Proof. apply g2_to_of, g2_generator_on. Qed.
Lemma g1_gen_nz : g1_gen <> gz.
Proof. intros H. apply (f_equal g1_to) in H. rewrite g1_to_gen in H. discriminate H. Qed.
Lemma g2_gen_nz : g2_gen <> gz.
Proof. intros H. apply (f_equal g2_to) in H. rewrite g2_to_gen in H. discriminate H. Qed.
