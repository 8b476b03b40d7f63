(** Non-cubes modulo p, and two consequences: no curve point has the midpoint (p-1)/2 of the field as
    the deciding coordinate of y, except points of the twist with y.c1 = (p-1)/2. *)
From Coq Require Import Znumtheory Zpow_facts Field.
From Verif Require Import Base Prime Constants Field Curve EncodingModel PointModel HashCurveSpec CodecSpec GadgetSpec.

Definition third : Z := (p - 1) / 3.
Lemma third_val : p - 1 = 3 * third. Proof. vm_compute. reflexivity. Qed.
Lemma third_pos : 0 < third. Proof. reflexivity. Qed.
Lemma third_sixth : third = sixth * 2. Proof. vm_compute. reflexivity. Qed.
Lemma cert_base_third : (cert_base ^ third) mod p <> 1.
Proof. rewrite third_sixth, sixth_root by lia. vm_compute. intros K. discriminate K. Qed.
Lemma noncube a : a mod p <> 0 -> (a ^ third) mod p <> 1 -> forall x, ~ eqp (x * x * x) a.
Proof.
  intros Ha Hc x Hx. apply eqp_mod in Hx. apply Hc.
  assert (Hnd : ~ (p | x)).
  { intros [k Hk]. apply Ha. rewrite <- Hx, Hk. replace (k * p * (k * p) * (k * p)) with (k * p * (k * p) * k * p) by ring. apply Z_mod_mult. }
  pose proof (fermat_little p x prime_p Hnd) as F. rewrite third_val in F.
  rewrite Z.pow_mul_r in F by (pose proof third_pos; lia). replace (x ^ 3) with (x * x * x) in F by ring.
  rewrite Zpower_mod in F by apply p_pos. rewrite Hx in F. rewrite <- Zpower_mod in F by apply p_pos. exact F.
Qed.
(** -6 is no cube: (-5)^3 (-6)^4 is none *)
Lemma minus6_noncube x : ~ eqp (x * x * x) (-6).
Proof.
  intros [k H]. apply (noncube cert_base ltac:(vm_compute; discriminate) cert_base_third (-5 * (x * x * x * x))). unfold eqp, cert_base.
  remember (x * x * x) as c eqn:Ec.
  exists (k * -125 * ((c - 6) * (c * c + 36))).
  transitivity (-125 * ((c - -6) * ((c - 6) * (c * c + 36)))); [rewrite Ec; ring|rewrite H; ring].
Qed.

Definition six := fq_of (-6).
Lemma six_noncube x : qmul (qmul x x) x <> six.
Proof.
  intros Hx. apply (minus6_noncube (fqv x)). apply eqp_mod. apply (f_equal fqv) in Hx. unfold six in Hx. rewrite fqv_of in Hx.
  rewrite <- Hx. unfold qmul. modring. reflexivity.
Qed.
(** y = (p-1)/2 = -1/2 would need (2x)^3 = -6. *)
Lemma g1_no_midpoint Q : g1_equation Q -> ~ midpoint (snd Q).
Proof.
  destruct Q as [x y]. unfold g1_equation, midpoint. cbn [fst snd]. intros E M.
  assert (Y : qadd y y = qopp q1).
  { apply fq_ext. unfold qadd, qopp. modring. rewrite M. change (fqv q1) with 1. reflexivity. }
  apply (six_noncube (qadd x x)).
  assert (S : six = qsub (qmul (qadd q1 q1) (qmul (qopp q1) (qopp q1))) (qmul (qadd (qadd (qadd q1 q1) (qadd q1 q1)) (qadd (qadd q1 q1) (qadd q1 q1))) q1)).
  { apply fq_ext. vm_compute. reflexivity. }
  rewrite S, <- Y. 
  assert (B : qmul (qmul x x) x = qsub (qmul y y) q1). { rewrite E. change PointModel.G1_B with q1. ring. }
  transitivity (qmul (qadd (qadd (qadd q1 q1) (qadd q1 q1)) (qadd (qadd q1 q1) (qadd q1 q1))) (qmul (qmul x x) x)); [ring|].
  rewrite B. ring.
Qed.
Lemma q2norm_mul a b : q2norm (q2mul a b) = qmul (q2norm a) (q2norm b).
Proof. destruct a, b. unfold q2norm, q2mul. cbn [fst snd]. ring. Qed.
Definition mid_norm : fq := q2norm (q2sub (q2mul (fq_of half, q0) (fq_of half, q0)) TWIST_B).
(** -6 times the cube of [s] is no cube either *)
Lemma six_times s c : s <> q0 -> c = qmul six (qmul (qmul s s) s) -> forall x, qmul (qmul x x) x <> c.
Proof.
  intros Hs -> x Hx. apply (six_noncube (qdiv x s)). transitivity (qdiv (qmul (qmul x x) x) (qmul (qmul s s) s)); [field; exact Hs|]. rewrite Hx. field. exact Hs.
Qed.
Lemma mid_noncube x : qmul (qmul x x) x <> mid_norm.
Proof.
  apply (six_times (fq_of 0x13aa4652d67531cb75fa06c5d3e4258835cc9688072173423ffcfcef1306edbc7cdae2503b20f081dc198e6077433b2)).
  - intros H. apply (f_equal fqv) in H. vm_compute in H. discriminate H.
  - apply fq_ext. vm_compute. reflexivity.
Qed.
Lemma twist_b_noncube x : qmul (qmul x x) x <> q2norm TWIST_B.
Proof.
  apply (six_times (fq_of 0xb4fb80a908138a4f2c1a60e071b493af7e1667113903cd1c3b8da6eb860c778793705135c12b7acf94dc83d2720df)).
  - intros H. apply (f_equal fqv) in H. vm_compute in H. discriminate H.
  - apply fq_ext. vm_compute. reflexivity.
Qed.
Lemma g2_no_midpoint Q : g2_equation Q -> ~ (snd (snd Q) = q0 /\ midpoint (fst (snd Q))).
Proof.
  destruct Q as [x [c0 c1]]. unfold g2_equation, midpoint. cbn [fst snd]. intros E [-> M].
  assert (c0 = fq_of half) as ->. { apply fq_ext. rewrite fqv_of, Z.mod_small; [exact M|]. pose proof half_val. pose proof half_pos. lia. }
  apply (mid_noncube (q2norm x)). rewrite <- !q2norm_mul. unfold mid_norm. f_equal.
  rewrite E. destruct x as [x0 x1]. unfold q2sub, q2add, q2mul. cbn [fst snd]. f_equal; ring.
Qed.
