(** The twisted Edwards curve -x^2 + y^2 = 1 + d x^2 y^2 over the base field of BLS12-377, d = 79743
    (ark-ed-on-bw6-761, a dependency: [EdwardsParameters], COEFF_A = -1, COEFF_D = 79743), with the affine
    addition law of ark-ec's [twisted_edwards_extended] models.  The Pedersen hash of
    crates/bls-crypto/src/hashers/composite.rs:1-16 works in its prime order subgroup.
    Nothing here is trusted: the law is proved complete and associative below, so the points form a [grp]. *)
From Coq Require Import Field Eqdep_dec.
From Verif Require Import Base Prime Constants Group Field Curve.

Declare Scope fq_scope.
Delimit Scope fq_scope with Q.
Local Infix "+" := qadd : fq_scope.
Local Infix "*" := qmul : fq_scope.
Local Infix "-" := qsub : fq_scope.
Local Infix "/" := qdiv : fq_scope.
Local Notation "- x" := (qopp x) : fq_scope.
Local Notation "0" := q0 : fq_scope.
Local Notation "1" := q1 : fq_scope.
Local Open Scope fq_scope.
Add Field EdF : fq_field.

(** COEFF_D *)
Definition ED_D : fq := fq_of 79743.

Definition ed_on (P : fq * fq) : bool :=
  let '(x, y) := P in qeqb (y * y - x * x) (1 + ED_D * (x * x * (y * y))).
(** [GroupAffine::add] with a = -1 *)
Definition ed_add (P Q : fq * fq) : fq * fq :=
  let '(x1, y1) := P in let '(x2, y2) := Q in
  let t := ED_D * x1 * x2 * y1 * y2 in
  ((x1 * y2 + y1 * x2) / (1 + t), (y1 * y2 + x1 * x2) / (1 - t)).
Definition ed_neg (P : fq * fq) : fq * fq := (- fst P, snd P).
Definition ed_zero : fq * fq := (0, 1).
Definition ed_eqb (P Q : fq * fq) : bool := qeqb (fst P) (fst Q) && qeqb (snd P) (snd Q).

(** ** Field facts *)
Lemma q_integral a b : a * b = 0 -> a = 0 \/ b = 0.
Proof.
  intros H. destruct (qeqb a 0) eqn:E; [left; apply qeqb_spec; exact E|right].
  assert (Ha : a <> 0) by (intros ->; rewrite (proj2 (qeqb_spec _ _) eq_refl) in E; discriminate).
  transitivity (a * b / a); [field; exact Ha|]. rewrite H. field. exact Ha.
Qed.
Lemma q_nz_mul a b : a <> 0 -> b <> 0 -> a * b <> 0.
Proof. intros Ha Hb H. apply q_integral in H. destruct H; contradiction. Qed.
Lemma q_sub_eq a b : a - b = 0 -> a = b.
Proof. intros H. transitivity (a - b + b); [ring|]. rewrite H. ring. Qed.
Lemma q_eq_sub a b : a = b -> a - b = 0.
Proof. intros ->. ring. Qed.
Lemma q_1_nz : q1 <> 0. Proof. intros H. apply (f_equal fqv) in H. discriminate H. Qed.
Lemma q_2_nz : q1 + q1 <> 0. Proof. intros H. apply (f_equal fqv) in H. discriminate H. Qed.

Lemma q_div_1 a : a / q1 = a.
Proof.
  pose proof (Finv_l fq_field q1 q_1_nz) as H. unfold qdiv. revert H. generalize (qinv q1). intros i H.
  assert (E : i = q1) by (rewrite <- H; ring). rewrite E. ring.
Qed.
Lemma q_pair (a b c d : fq) : a = c -> b = d -> (a, b) = (c, d).
Proof. intros -> ->. reflexivity. Qed.

Definition q_i : fq := fq_of 42198664672744474621281227892288285906241943207628877683080515507620245292955241189266486323192680957485559243678.
Lemma q_i_sq : q_i * q_i = - q1.
Proof. apply fq_ext. vm_compute. reflexivity. Qed.
(* d = -5 w^2, and -5 is not a square *)
Definition q_w : fq := fq_of 107304092797465652478664631903567583576281539161036039464632014964979069456759275401108857374908499368710814037468.
Lemma ed_d_w : q_w * q_w * fq_of (-5) = ED_D.
Proof. apply fq_ext. vm_compute. reflexivity. Qed.
Lemma ed_d_nonsquare s : s * s <> ED_D.
Proof.
  intros H. assert (Hw : q_w <> 0) by (intros E; apply (f_equal fqv) in E; vm_compute in E; discriminate E).
  assert (K : (s / q_w) * (s / q_w) = fq_of (-5)).
  { transitivity (s * s / (q_w * q_w)); [field; exact Hw|]. rewrite H, <- ed_d_w. field. exact Hw. }
  apply (f_equal fqv) in K. apply (minus5_nonresidue (fqv (s / q_w))). apply eqp_mod. exact K.
Qed.
(* the two products below are squares times d *)
Lemma ed_no_ratio u v : u * u = ED_D * (v * v) -> v = 0.
Proof.
  intros H. destruct (qeqb v 0) eqn:E; [apply qeqb_spec; exact E|exfalso].
  assert (Hv : v <> 0) by (intros ->; rewrite (proj2 (qeqb_spec _ _) eq_refl) in E; discriminate).
  apply (ed_d_nonsquare (u / v)). transitivity (u * u / (v * v)); [field; exact Hv|]. rewrite H. field. exact Hv.
Qed.

Definition ed_eqn (x y : fq) : fq := y * y - x * x - 1 - ED_D * (x * x * (y * y)).
Lemma ed_on_eqn x y : ed_on (x, y) = true <-> ed_eqn x y = 0.
Proof.
  unfold ed_on, ed_eqn. rewrite qeqb_spec. split; intros H.
  - rewrite H. ring.
  - apply q_sub_eq. rewrite <- H. ring.
Qed.

(** ** Completeness (Bernstein and Lange): the denominators of the law never vanish *)
Lemma ed_t_sq x1 y1 x2 y2 : ed_eqn x1 y1 = 0 -> ed_eqn x2 y2 = 0 ->
  ED_D * x1 * x2 * y1 * y2 * (ED_D * x1 * x2 * y1 * y2) <> 1.
Proof.
  intros E1 E2 T. set (t := ED_D * x1 * x2 * y1 * y2) in *.
  assert (Ht0 : t <> 0). { intros Z. rewrite Z in T. apply q_1_nz. rewrite <- T. ring. }
  assert (Hx1 : x1 <> 0) by (intros Z; apply Ht0; unfold t; rewrite Z; ring).
  assert (Hy1 : y1 <> 0) by (intros Z; apply Ht0; unfold t; rewrite Z; ring).
  assert (Hx2 : x2 <> 0) by (intros Z; apply Ht0; unfold t; rewrite Z; ring).
  assert (Hy2 : y2 <> 0) by (intros Z; apply Ht0; unfold t; rewrite Z; ring).
  (* (i x1 + s t y1)^2 = d (x1 y1 (i x2 + s y2))^2 for s = 1 and s = -1 *)
  assert (K : forall s, s * s = q1 -> s <> 0 -> q_i * x2 + s * y2 = 0).
  { intros s Hs Hs0.
    assert (R : (q_i * x1 + s * t * y1) * (q_i * x1 + s * t * y1) = ED_D * (x1 * y1 * (q_i * x2 + s * y2) * (x1 * y1 * (q_i * x2 + s * y2)))).
    { apply q_sub_eq.
      transitivity ((q_i * q_i + 1) * (x1 * x1 - ED_D * x1 * x1 * y1 * y1 * x2 * x2)
        + (s * s - 1) * (t * t * y1 * y1 - ED_D * x1 * x1 * y1 * y1 * y2 * y2)
        + ed_eqn x1 y1 - ED_D * (x1 * x1 * (y1 * y1)) * ed_eqn x2 y2 + (t * t - 1) * (y1 * y1 - 1)).
      - unfold ed_eqn. unfold t. ring.
      - rewrite E1, E2, T, Hs, q_i_sq. ring. }
    apply ed_no_ratio in R. apply q_integral in R. destruct R as [R|R]; [|exact R].
    exfalso. apply (q_nz_mul x1 y1 Hx1 Hy1). exact R. }
  pose proof (K q1 ltac:(ring) q_1_nz) as K1.
  pose proof (K (- q1) ltac:(ring) ltac:(intros H; apply q_1_nz; transitivity (- - q1); [ring|]; rewrite H; ring)) as K2.
  apply (q_nz_mul (q1 + q1) y2 q_2_nz Hy2). transitivity (q_i * x2 + q1 * y2 - (q_i * x2 + - q1 * y2)); [ring|]. rewrite K1, K2. ring.
Qed.
Lemma ed_complete x1 y1 x2 y2 : ed_eqn x1 y1 = 0 -> ed_eqn x2 y2 = 0 ->
  q1 + ED_D * x1 * x2 * y1 * y2 <> 0 /\ q1 - ED_D * x1 * x2 * y1 * y2 <> 0.
Proof.
  intros E1 E2. pose proof (ed_t_sq x1 y1 x2 y2 E1 E2) as T. set (t := ED_D * x1 * x2 * y1 * y2) in *.
  split; intros H; apply T.
  - transitivity (1 - (1 + t) * (1 - t)); [ring|]. rewrite H. ring.
  - transitivity (1 - (1 + t) * (1 - t)); [ring|]. rewrite H. ring.
Qed.

(** ** Closure *)
Lemma ed_add_on_eqn x1 y1 x2 y2 : ed_eqn x1 y1 = 0 -> ed_eqn x2 y2 = 0 ->
  ed_eqn ((x1 * y2 + y1 * x2) / (1 + ED_D * x1 * x2 * y1 * y2)) ((y1 * y2 + x1 * x2) / (1 - ED_D * x1 * x2 * y1 * y2)) = 0.
Proof.
  intros E1 E2. destruct (ed_complete x1 y1 x2 y2 E1 E2) as [Ha Hb].
  set (a := 1 + ED_D * x1 * x2 * y1 * y2) in *. set (b := 1 - ED_D * x1 * x2 * y1 * y2) in *.
  set (A := x1 * y2 + y1 * x2). set (B := y1 * y2 + x1 * x2).
  assert (R : B * B * (a * a) - A * A * (b * b) - a * a * (b * b) - ED_D * (A * A * (B * B)) = 0).
  { transitivity ((y2*y2*y2*y2 - (1+1+1+1)*x2*x2*y2*y2 - (1+1)*x2*x2*y2*y2*ED_D + (1+1)*x2*x2*y2*y2*y2*y2 + x2*x2*x2*x2 - (1+1)*x2*x2*x2*x2*y2*y2 - (1+1)*x2*x2*x2*x2*y2*y2*y2*y2*ED_D - x2*x2*x2*x2*y2*y2*y2*y2*ED_D*ED_D - y1*y1*x2*x2*y2*y2*y2*y2*ED_D + y1*y1*x2*x2*x2*x2*y2*y2*ED_D + y1*y1*x2*x2*x2*x2*y2*y2*y2*y2*ED_D*ED_D + x1*x1*x2*x2*y2*y2*y2*y2*ED_D - x1*x1*x2*x2*x2*x2*y2*y2*ED_D - x1*x1*x2*x2*x2*x2*y2*y2*y2*y2*ED_D*ED_D + x1*x1*y1*y1*x2*x2*x2*x2*y2*y2*y2*y2*ED_D*ED_D*ED_D) * ed_eqn x1 y1
      + (1 + y2*y2 - x2*x2 + (1+1)*x2*x2*y2*y2 + x2*x2*y2*y2*ED_D - y1*y1*y2*y2 + y1*y1*x2*x2 - (1+1)*y1*y1*x2*x2*y2*y2 - (1+1)*y1*y1*x2*x2*y2*y2*ED_D + y1*y1*y1*y1*x2*x2*y2*y2*ED_D + x1*x1*y2*y2 - x1*x1*x2*x2 + (1+1)*x1*x1*x2*x2*y2*y2 + (1+1)*x1*x1*x2*x2*y2*y2*ED_D + x1*x1*x1*x1*x2*x2*y2*y2*ED_D) * ed_eqn x2 y2).
    - unfold ed_eqn, a, b, A, B. set (d := ED_D). clearbody d. clear. ring.
    - rewrite E1, E2. ring. }
  unfold ed_eqn. transitivity ((B * B * (a * a) - A * A * (b * b) - a * a * (b * b) - ED_D * (A * A * (B * B))) / (a * a * (b * b))).
  - clearbody a b A B. field. split; assumption.
  - rewrite R. clearbody a b. field. split; assumption.
Qed.
Lemma ed_add_on P Q : ed_on P = true -> ed_on Q = true -> ed_on (ed_add P Q) = true.
Proof.
  destruct P as [x1 y1], Q as [x2 y2]. rewrite !ed_on_eqn. intros E1 E2. cbn [ed_add]. cbv zeta.
  apply ed_on_eqn, ed_add_on_eqn; assumption.
Qed.
Lemma ed_neg_on P : ed_on P = true -> ed_on (ed_neg P) = true.
Proof. destruct P as [x y]. unfold ed_neg. cbn [fst snd]. rewrite !ed_on_eqn. intros H. rewrite <- H. unfold ed_eqn. ring. Qed.
Lemma ed_zero_on : ed_on ed_zero = true.
Proof. unfold ed_zero. apply ed_on_eqn. unfold ed_eqn. ring. Qed.

(** ** Associativity: the two sides differ by an explicit combination of the three curve equations *)
Lemma q_frac u v nl dl nr dr : u * dl = nl -> v * dr = nr -> dl <> 0 -> dr <> 0 -> nl * dr - nr * dl = 0 -> u = v.
Proof.
  intros <- <- Hl Hr H.
  assert (Z : (u - v) * (dl * dr) = 0) by (rewrite <- H; ring).
  apply q_integral in Z. destruct Z as [Z|Z]; [apply q_sub_eq; exact Z|].
  exfalso. exact (q_nz_mul dl dr Hl Hr Z).
Qed.

Section Assoc.
Variables x1 y1 x2 y2 x3 y3 : fq.
Let d := ED_D.
Let t := d * x1 * x2 * y1 * y2.
Let t' := d * x2 * x3 * y2 * y3.
Let A := x1 * y2 + y1 * x2.
Let B := y1 * y2 + x1 * x2.
Let A' := x2 * y3 + y2 * x3.
Let B' := y2 * y3 + x2 * x3.
Lemma ed_assoc_x :
  (A * (1 - t) * y3 + B * (1 + t) * x3) * (1 - t' * t' + d * x1 * y1 * A' * B')
  - (x1 * B' * (1 + t') + y1 * A' * (1 - t')) * (1 - t * t + d * A * B * x3 * y3)
  = (- (y1*x2*y2*y2*y2*y2*x3*x3*y3*d) - y1*x2*x2*y2*y2*y2*x3*d - y1*x2*x2*y2*y2*y2*x3*x3*x3*d - y1*x2*x2*x2*y2*y2*y3*d
      + y1*x2*x2*x2*y2*y2*y3*y3*y3*d + y1*x2*x2*x2*y2*y2*y2*y2*x3*x3*y3*d*d + y1*x2*x2*x2*x2*y2*x3*y3*y3*d +
      y1*x2*x2*x2*x2*y2*y2*y2*x3*y3*y3*d*d + x1*x2*y2*y2*y2*y2*x3*y3*y3*d - x1*x2*x2*y2*y2*y2*y3*d +
      x1*x2*x2*y2*y2*y2*y3*y3*y3*d - x1*x2*x2*x2*y2*y2*x3*d - x1*x2*x2*x2*y2*y2*x3*x3*x3*d -
      x1*x2*x2*x2*y2*y2*y2*y2*x3*y3*y3*d*d - x1*x2*x2*x2*x2*y2*x3*x3*y3*d - x1*x2*x2*x2*x2*y2*y2*y2*x3*x3*y3*d*d)
    * ed_eqn x1 y1
    + (y1*y2*x3 - y1*y2*x3*y3*y3 + y1*y2*x3*x3*x3 + y1*y2*x3*x3*x3*y3*y3*d + y1*x2*y3 - y1*x2*y3*y3*y3 + y1*x2*x3*x3*y3
      + y1*x2*x3*x3*y3*y3*y3*d - y1*x2*y2*y2*x3*x3*y3*d - y1*x2*x2*y2*x3*y3*y3*d - y1*y1*y1*y2*x3 +
      y1*y1*y1*y2*x3*y3*y3 - y1*y1*y1*y2*x3*x3*x3 - y1*y1*y1*y2*x3*x3*x3*y3*y3*d - y1*y1*y1*x2*y3 +
      y1*y1*y1*x2*y3*y3*y3 - y1*y1*y1*x2*x3*x3*y3 - y1*y1*y1*x2*x3*x3*y3*y3*y3*d + y1*y1*y1*x2*y2*y2*x3*x3*y3*d +
      y1*y1*y1*x2*x2*y2*x3*y3*y3*d + x1*y2*y3 - x1*y2*y3*y3*y3 + x1*y2*x3*x3*y3 + x1*y2*x3*x3*y3*y3*y3*d + x1*x2*x3 -
      x1*x2*x3*y3*y3 + x1*x2*x3*x3*x3 + x1*x2*x3*x3*x3*y3*y3*d + x1*x2*y2*y2*x3*y3*y3*d + x1*x2*x2*y2*x3*x3*y3*d -
      x1*y1*y1*y2*y3 + x1*y1*y1*y2*y3*y3*y3 - x1*y1*y1*y2*x3*x3*y3 - x1*y1*y1*y2*x3*x3*y3*y3*y3*d - x1*y1*y1*x2*x3 +
      x1*y1*y1*x2*x3*y3*y3 - x1*y1*y1*x2*x3*x3*x3 - x1*y1*y1*x2*x3*x3*x3*y3*y3*d - x1*y1*y1*x2*y2*y2*x3*y3*y3*d +
      x1*y1*y1*x2*y2*y2*x3*x3*x3*y3*y3*d*d - x1*y1*y1*x2*x2*y2*x3*x3*y3*d - x1*y1*y1*x2*x2*y2*x3*x3*y3*y3*y3*d*d +
      x1*x1*y1*y2*x3 - x1*x1*y1*y2*x3*y3*y3 + x1*x1*y1*y2*x3*x3*x3 + x1*x1*y1*y2*x3*x3*x3*y3*y3*d + x1*x1*y1*x2*y3 -
      x1*x1*y1*x2*y3*y3*y3 + x1*x1*y1*x2*x3*x3*y3 + x1*x1*y1*x2*x3*x3*y3*y3*y3*d - x1*x1*y1*x2*y2*y2*x3*x3*y3*d -
      x1*x1*y1*x2*y2*y2*x3*x3*y3*y3*y3*d*d - x1*x1*y1*x2*x2*y2*x3*y3*y3*d + x1*x1*y1*x2*x2*y2*x3*x3*x3*y3*y3*d*d +
      x1*x1*x1*y2*y3 - x1*x1*x1*y2*y3*y3*y3 + x1*x1*x1*y2*x3*x3*y3 + x1*x1*x1*y2*x3*x3*y3*y3*y3*d + x1*x1*x1*x2*x3 -
      x1*x1*x1*x2*x3*y3*y3 + x1*x1*x1*x2*x3*x3*x3 + x1*x1*x1*x2*x3*x3*x3*y3*y3*d + x1*x1*x1*x2*y2*y2*x3*y3*y3*d +
      x1*x1*x1*x2*x2*y2*x3*x3*y3*d)
    * ed_eqn x2 y2
    + (- (y1*y2*x3) + y1*y2*y2*y2*x3 - y1*x2*y3 + y1*x2*y2*y2*y3 - y1*x2*x2*y2*x3 - y1*x2*x2*x2*y3 + y1*y1*y1*y2*x3 -
      y1*y1*y1*y2*y2*y2*x3 + y1*y1*y1*x2*y3 - y1*y1*y1*x2*y2*y2*y3 + y1*y1*y1*x2*x2*y2*x3 + y1*y1*y1*x2*x2*x2*y3 -
      x1*y2*y3 + x1*y2*y2*y2*y3 - x1*x2*x3 + x1*x2*y2*y2*x3 - x1*x2*x2*y2*y3 - x1*x2*x2*x2*x3 + x1*y1*y1*y2*y3 -
      x1*y1*y1*y2*y2*y2*y3 + x1*y1*y1*x2*x3 - x1*y1*y1*x2*y2*y2*x3 - x1*y1*y1*x2*y2*y2*x3*d + x1*y1*y1*x2*x2*y2*y3 +
      x1*y1*y1*x2*x2*y2*y3*d + x1*y1*y1*x2*x2*x2*x3 - x1*x1*y1*y2*x3 + x1*x1*y1*y2*y2*y2*x3 - x1*x1*y1*x2*y3 +
      x1*x1*y1*x2*y2*y2*y3 + x1*x1*y1*x2*y2*y2*y3*d - x1*x1*y1*x2*x2*y2*x3 - x1*x1*y1*x2*x2*y2*x3*d -
      x1*x1*y1*x2*x2*x2*y3 - x1*x1*x1*y2*y3 + x1*x1*x1*y2*y2*y2*y3 - x1*x1*x1*x2*x3 + x1*x1*x1*x2*y2*y2*x3 -
      x1*x1*x1*x2*x2*y2*y3 - x1*x1*x1*x2*x2*x2*x3)
    * ed_eqn x3 y3.
Proof. unfold ed_eqn. fold d. unfold t, t', A, B, A', B'. clearbody d. clear. ring. Qed.
Lemma ed_assoc_y :
  (B * (1 + t) * y3 + A * (1 - t) * x3) * (1 - t' * t' - d * x1 * y1 * A' * B')
  - (y1 * B' * (1 + t') + x1 * A' * (1 - t')) * (1 - t * t - d * A * B * x3 * y3)
  = (y1*x2*y2*y2*y2*y2*x3*y3*y3*d - y1*x2*x2*y2*y2*y2*y3*d + y1*x2*x2*y2*y2*y2*y3*y3*y3*d - y1*x2*x2*x2*y2*y2*x3*d -
      y1*x2*x2*x2*y2*y2*x3*x3*x3*d - y1*x2*x2*x2*y2*y2*y2*y2*x3*y3*y3*d*d - y1*x2*x2*x2*x2*y2*x3*x3*y3*d -
      y1*x2*x2*x2*x2*y2*y2*y2*x3*x3*y3*d*d - x1*x2*y2*y2*y2*y2*x3*x3*y3*d - x1*x2*x2*y2*y2*y2*x3*d -
      x1*x2*x2*y2*y2*y2*x3*x3*x3*d - x1*x2*x2*x2*y2*y2*y3*d + x1*x2*x2*x2*y2*y2*y3*y3*y3*d +
      x1*x2*x2*x2*y2*y2*y2*y2*x3*x3*y3*d*d + x1*x2*x2*x2*x2*y2*x3*y3*y3*d + x1*x2*x2*x2*x2*y2*y2*y2*x3*y3*y3*d*d)
    * ed_eqn x1 y1
    + (y1*y2*y3 - y1*y2*y3*y3*y3 + y1*y2*x3*x3*y3 + y1*y2*x3*x3*y3*y3*y3*d + y1*x2*x3 - y1*x2*x3*y3*y3 + y1*x2*x3*x3*x3
      + y1*x2*x3*x3*x3*y3*y3*d + y1*x2*y2*y2*x3*y3*y3*d + y1*x2*x2*y2*x3*x3*y3*d - y1*y1*y1*y2*y3 +
      y1*y1*y1*y2*y3*y3*y3 - y1*y1*y1*y2*x3*x3*y3 - y1*y1*y1*y2*x3*x3*y3*y3*y3*d - y1*y1*y1*x2*x3 +
      y1*y1*y1*x2*x3*y3*y3 - y1*y1*y1*x2*x3*x3*x3 - y1*y1*y1*x2*x3*x3*x3*y3*y3*d - y1*y1*y1*x2*y2*y2*x3*y3*y3*d -
      y1*y1*y1*x2*x2*y2*x3*x3*y3*d + x1*y2*x3 - x1*y2*x3*y3*y3 + x1*y2*x3*x3*x3 + x1*y2*x3*x3*x3*y3*y3*d + x1*x2*y3 -
      x1*x2*y3*y3*y3 + x1*x2*x3*x3*y3 + x1*x2*x3*x3*y3*y3*y3*d - x1*x2*y2*y2*x3*x3*y3*d - x1*x2*x2*y2*x3*y3*y3*d -
      x1*y1*y1*y2*x3 + x1*y1*y1*y2*x3*y3*y3 - x1*y1*y1*y2*x3*x3*x3 - x1*y1*y1*y2*x3*x3*x3*y3*y3*d - x1*y1*y1*x2*y3 +
      x1*y1*y1*x2*y3*y3*y3 - x1*y1*y1*x2*x3*x3*y3 - x1*y1*y1*x2*x3*x3*y3*y3*y3*d + x1*y1*y1*x2*y2*y2*x3*x3*y3*d +
      x1*y1*y1*x2*y2*y2*x3*x3*y3*y3*y3*d*d + x1*y1*y1*x2*x2*y2*x3*y3*y3*d - x1*y1*y1*x2*x2*y2*x3*x3*x3*y3*y3*d*d +
      x1*x1*y1*y2*y3 - x1*x1*y1*y2*y3*y3*y3 + x1*x1*y1*y2*x3*x3*y3 + x1*x1*y1*y2*x3*x3*y3*y3*y3*d + x1*x1*y1*x2*x3 -
      x1*x1*y1*x2*x3*y3*y3 + x1*x1*y1*x2*x3*x3*x3 + x1*x1*y1*x2*x3*x3*x3*y3*y3*d + x1*x1*y1*x2*y2*y2*x3*y3*y3*d -
      x1*x1*y1*x2*y2*y2*x3*x3*x3*y3*y3*d*d + x1*x1*y1*x2*x2*y2*x3*x3*y3*d + x1*x1*y1*x2*x2*y2*x3*x3*y3*y3*y3*d*d +
      x1*x1*x1*y2*x3 - x1*x1*x1*y2*x3*y3*y3 + x1*x1*x1*y2*x3*x3*x3 + x1*x1*x1*y2*x3*x3*x3*y3*y3*d + x1*x1*x1*x2*y3 -
      x1*x1*x1*x2*y3*y3*y3 + x1*x1*x1*x2*x3*x3*y3 + x1*x1*x1*x2*x3*x3*y3*y3*y3*d - x1*x1*x1*x2*y2*y2*x3*x3*y3*d -
      x1*x1*x1*x2*x2*y2*x3*y3*y3*d)
    * ed_eqn x2 y2
    + (- (y1*y2*y3) + y1*y2*y2*y2*y3 - y1*x2*x3 + y1*x2*y2*y2*x3 - y1*x2*x2*y2*y3 - y1*x2*x2*x2*x3 + y1*y1*y1*y2*y3 -
      y1*y1*y1*y2*y2*y2*y3 + y1*y1*y1*x2*x3 - y1*y1*y1*x2*y2*y2*x3 + y1*y1*y1*x2*x2*y2*y3 + y1*y1*y1*x2*x2*x2*x3 -
      x1*y2*x3 + x1*y2*y2*y2*x3 - x1*x2*y3 + x1*x2*y2*y2*y3 - x1*x2*x2*y2*x3 - x1*x2*x2*x2*y3 + x1*y1*y1*y2*x3 -
      x1*y1*y1*y2*y2*y2*x3 + x1*y1*y1*x2*y3 - x1*y1*y1*x2*y2*y2*y3 - x1*y1*y1*x2*y2*y2*y3*d + x1*y1*y1*x2*x2*y2*x3 +
      x1*y1*y1*x2*x2*y2*x3*d + x1*y1*y1*x2*x2*x2*y3 - x1*x1*y1*y2*y3 + x1*x1*y1*y2*y2*y2*y3 - x1*x1*y1*x2*x3 +
      x1*x1*y1*x2*y2*y2*x3 + x1*x1*y1*x2*y2*y2*x3*d - x1*x1*y1*x2*x2*y2*y3 - x1*x1*y1*x2*x2*y2*y3*d -
      x1*x1*y1*x2*x2*x2*x3 - x1*x1*x1*y2*x3 + x1*x1*x1*y2*y2*y2*x3 - x1*x1*x1*x2*y3 + x1*x1*x1*x2*y2*y2*y3 -
      x1*x1*x1*x2*x2*y2*x3 - x1*x1*x1*x2*x2*x2*y3)
    * ed_eqn x3 y3.
Proof. unfold ed_eqn. fold d. unfold t, t', A, B, A', B'. clearbody d. clear. ring. Qed.
End Assoc.

Lemma ed_assoc P Q S : ed_on P = true -> ed_on Q = true -> ed_on S = true ->
  ed_add (ed_add P Q) S = ed_add P (ed_add Q S).
Proof.
  destruct P as [x1 y1], Q as [x2 y2], S as [x3 y3]. rewrite !ed_on_eqn. intros E1 E2 E3. cbn [ed_add]. cbv zeta.
  destruct (ed_complete x1 y1 x2 y2 E1 E2) as [Ha Hb].
  destruct (ed_complete x2 y2 x3 y3 E2 E3) as [Ha' Hb'].
  pose proof (ed_add_on_eqn x1 y1 x2 y2 E1 E2) as E12.
  pose proof (ed_add_on_eqn x2 y2 x3 y3 E2 E3) as E23.
  destruct (ed_complete _ _ x3 y3 E12 E3) as [Hc He].
  destruct (ed_complete x1 y1 _ _ E1 E23) as [Hc' He'].
  pose proof (ed_assoc_x x1 y1 x2 y2 x3 y3) as AX. pose proof (ed_assoc_y x1 y1 x2 y2 x3 y3) as AY.
  cbv zeta in AX, AY. rewrite E1, E2, E3 in AX, AY. clear E1 E2 E3 E12 E23.
  set (a := 1 + ED_D * x1 * x2 * y1 * y2) in *. set (b := 1 - ED_D * x1 * x2 * y1 * y2) in *.
  set (a' := 1 + ED_D * x2 * x3 * y2 * y3) in *. set (b' := 1 - ED_D * x2 * x3 * y2 * y3) in *.
  set (A := x1 * y2 + y1 * x2) in *. set (B := y1 * y2 + x1 * x2) in *.
  set (A' := x2 * y3 + y2 * x3) in *. set (B' := y2 * y3 + x2 * x3) in *.
  assert (Hab : a * b <> 0) by (apply q_nz_mul; assumption). assert (Hab' : a' * b' <> 0) by (apply q_nz_mul; assumption).
  apply q_pair.
  - apply q_frac with (nl := A * b * y3 + B * a * x3) (dl := a * b * (1 + ED_D * (A / a) * x3 * (B / b) * y3))
      (nr := x1 * B' * a' + y1 * A' * b') (dr := a' * b' * (1 + ED_D * x1 * (A' / a') * y1 * (B' / b'))).
    + set (D := 1 + ED_D * (A / a) * x3 * (B / b) * y3) in *. clearbody D a b A B. field. repeat split; assumption.
    + set (D := 1 + ED_D * x1 * (A' / a') * y1 * (B' / b')) in *. clearbody D a' b' A' B'. field. repeat split; assumption.
    + apply q_nz_mul; assumption.
    + apply q_nz_mul; assumption.
    + assert (L : a * b * (1 + ED_D * (A / a) * x3 * (B / b) * y3) = a * b + ED_D * A * B * x3 * y3)
        by (clearbody a b A B; field; split; assumption).
      assert (R : a' * b' * (1 + ED_D * x1 * (A' / a') * y1 * (B' / b')) = a' * b' + ED_D * x1 * y1 * A' * B')
        by (clearbody a' b' A' B'; field; split; assumption).
      rewrite L, R. etransitivity; [|etransitivity; [exact AX|ring]]. unfold a, b, a', b'. ring.
  - apply q_frac with (nl := B * a * y3 + A * b * x3) (dl := a * b * (1 - ED_D * (A / a) * x3 * (B / b) * y3))
      (nr := y1 * B' * a' + x1 * A' * b') (dr := a' * b' * (1 - ED_D * x1 * (A' / a') * y1 * (B' / b'))).
    + set (D := 1 - ED_D * (A / a) * x3 * (B / b) * y3) in *. clearbody D a b A B. field. repeat split; assumption.
    + set (D := 1 - ED_D * x1 * (A' / a') * y1 * (B' / b')) in *. clearbody D a' b' A' B'. field. repeat split; assumption.
    + apply q_nz_mul; assumption.
    + apply q_nz_mul; assumption.
    + assert (L : a * b * (1 - ED_D * (A / a) * x3 * (B / b) * y3) = a * b - ED_D * A * B * x3 * y3)
        by (clearbody a b A B; field; split; assumption).
      assert (R : a' * b' * (1 - ED_D * x1 * (A' / a') * y1 * (B' / b')) = a' * b' - ED_D * x1 * y1 * A' * B')
        by (clearbody a' b' A' B'; field; split; assumption).
      rewrite L, R. etransitivity; [|etransitivity; [exact AY|ring]]. unfold a, b, a', b'. ring.
Qed.
Lemma ed_comm P Q : ed_add P Q = ed_add Q P.
Proof.
  destruct P as [x1 y1], Q as [x2 y2]. cbn [ed_add]. cbv zeta.
  replace (ED_D * x2 * x1 * y2 * y1) with (ED_D * x1 * x2 * y1 * y2) by ring.
  replace (x2 * y1 + y2 * x1) with (x1 * y2 + y1 * x2) by ring. replace (y2 * y1 + x2 * x1) with (y1 * y2 + x1 * x2) by ring.
  reflexivity.
Qed.
Lemma ed_zero_l P : ed_add ed_zero P = P.
Proof.
  destruct P as [x y]. unfold ed_zero. cbn [ed_add]. cbv zeta.
  replace (ED_D * 0 * x * 1 * y) with q0 by ring. apply q_pair.
  - replace (0 * y + 1 * x) with x by ring. replace (1 + 0) with q1 by ring. apply q_div_1.
  - replace (1 * y + 0 * x) with y by ring. replace (1 - 0) with q1 by ring. apply q_div_1.
Qed.
Lemma ed_neg_l P : ed_on P = true -> ed_add (ed_neg P) P = ed_zero.
Proof.
  destruct P as [x y]. intros H. pose proof (ed_neg_on (x, y) H) as Hn. unfold ed_neg in *. cbn [fst snd] in *.
  rewrite ed_on_eqn in H, Hn. destruct (ed_complete _ _ _ _ Hn H) as [Ha Hb]. cbn [ed_add]. cbv zeta. unfold ed_zero.
  apply q_pair.
  - set (a := 1 + ED_D * - x * x * y * y) in *. clearbody a. field. exact Ha.
  - assert (E : y * y + - x * x = 1 - ED_D * - x * x * y * y).
    { apply q_sub_eq. rewrite <- H. unfold ed_eqn. ring. }
    rewrite E. set (b := 1 - ED_D * - x * x * y * y) in *. clearbody b. field. exact Hb.
Qed.
Lemma ed_eqb_spec P Q : ed_eqb P Q = true <-> P = Q.
Proof.
  destruct P as [x y], Q as [x' y']. unfold ed_eqb. cbn [fst snd]. rewrite andb_true_iff, !qeqb_spec.
  split; [intros [-> ->]; reflexivity|intros E; inversion E; split; reflexivity].
Qed.

(** ** The group *)
Definition ed_point := { P : fq * fq | ed_on P = true }.
Definition edp (P : ed_point) : fq * fq := proj1_sig P.
Lemma edp_on (P : ed_point) : ed_on (edp P) = true. Proof. exact (proj2_sig P). Qed.
Lemma edp_ext (P Q : ed_point) : edp P = edp Q -> P = Q.
Proof.
  destruct P as [P HP], Q as [Q HQ]. unfold edp. cbn [proj1_sig]. intros ->. f_equal. apply UIP_dec. apply bool_dec.
Qed.
Definition ed_gz : ed_point := exist _ ed_zero ed_zero_on.
Definition ed_ga (P Q : ed_point) : ed_point := exist _ (ed_add (edp P) (edp Q)) (ed_add_on _ _ (edp_on P) (edp_on Q)).
Definition ed_gn (P : ed_point) : ed_point := exist _ (ed_neg (edp P)) (ed_neg_on _ (edp_on P)).
Definition ed_geqb (P Q : ed_point) : bool := ed_eqb (edp P) (edp Q).
Definition ed_grp : grp.
Proof.
  refine (Grp ed_point ed_gz ed_ga ed_gn ed_geqb _ _ _ _ _).
  - intros a b c. apply edp_ext. symmetry. exact (ed_assoc _ _ _ (edp_on a) (edp_on b) (edp_on c)).
  - intros a b. apply edp_ext. exact (ed_comm _ _).
  - intros a. apply edp_ext. exact (ed_zero_l _).
  - intros a. apply edp_ext. exact (ed_neg_l _ (edp_on a)).
  - intros a b. unfold ed_geqb. rewrite ed_eqb_spec. split; [apply edp_ext|intros ->; reflexivity].
Defined.

(** ** Points with the same x coordinate *)
Lemma ed_minus_one_on : ed_on (0, - q1) = true.
Proof. apply ed_on_eqn. unfold ed_eqn. ring. Qed.
(** The point (0, -1), of order two. *)
Definition ed_two : ed_grp := exist _ (0, - q1) ed_minus_one_on.
Lemma ed_two_nz : ed_two <> gz.
Proof.
  intros E. apply (f_equal edp) in E. unfold ed_two, ed_gz, edp, ed_zero in E. cbn [proj1_sig] in E.
  apply (f_equal (fun P => fqv (snd P))) in E. cbn [snd] in E. discriminate E.
Qed.
Lemma ed_two_double : ga ed_two ed_two = gz.
Proof.
  apply edp_ext. change (ed_add (0, - q1) (0, - q1) = (0, 1)). cbn [ed_add]. cbv zeta.
  replace (ED_D * 0 * 0 * - q1 * - q1) with q0 by ring. apply q_pair.
  - replace (0 * - q1 + - q1 * 0) with q0 by ring. replace (1 + 0) with q1 by ring. apply q_div_1.
  - replace (- q1 * - q1 + 0 * 0) with q1 by ring. replace (1 - 0) with q1 by ring. apply q_div_1.
Qed.
Lemma ed_same_x_raw x y y' : ed_eqn x y = 0 -> ed_eqn x y' = 0 -> y = y' \/ y = - y'.
Proof.
  intros H H'. assert (K : (1 - ED_D * (x * x)) * ((y - y') * (y + y')) = 0).
  { transitivity (ed_eqn x y - ed_eqn x y'); [unfold ed_eqn; ring|]. rewrite H, H'. ring. }
  apply q_integral in K. destruct K as [K|K].
  - exfalso. destruct (qeqb x 0) eqn:E.
    + apply qeqb_spec in E. subst x. apply q_1_nz. rewrite <- K. ring.
    + assert (Hx : x <> 0) by (intros ->; rewrite (proj2 (qeqb_spec _ _) eq_refl) in E; discriminate).
      apply Hx. apply (ed_no_ratio 1 x). apply q_sub_eq. rewrite <- K. ring.
  - apply q_integral in K. destruct K as [K|K]; [left; apply q_sub_eq; exact K|right].
    apply q_sub_eq. rewrite <- K. ring.
Qed.
(** Two points with the same x coordinate are equal or add up to (0, -1). *)
Lemma ed_same_x (P Q : ed_grp) : fst (edp P) = fst (edp Q) -> P = Q \/ ga P Q = ed_two.
Proof.
  destruct P as [[x y] HP], Q as [[x' y'] HQ]. unfold edp. cbn [proj1_sig fst]. intros ->.
  pose proof HP as EP. pose proof HQ as EQ. rewrite ed_on_eqn in EP, EQ.
  destruct (ed_same_x_raw x' y y' EP EQ) as [-> | ->]; [left|right]; apply edp_ext.
  - reflexivity.
  - change (ed_add (x', - y') (x', y') = (0, - q1)). destruct (ed_complete _ _ _ _ EP EQ) as [Ha Hb]. cbn [ed_add]. cbv zeta.
    apply q_pair.
    + set (a := 1 + ED_D * x' * x' * - y' * y') in *. clearbody a. field. exact Ha.
    + assert (E : - y' * y' + x' * x' = - (1 - ED_D * x' * x' * - y' * y')).
      { apply q_sub_eq. transitivity (- ed_eqn x' y'); [unfold ed_eqn; ring|]. rewrite EQ. ring. }
      rewrite E. set (b := 1 - ED_D * x' * x' * - y' * y') in *. clearbody b. field. exact Hb.
Qed.
