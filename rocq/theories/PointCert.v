(** Multiples of points of the curve of G1 by certificates: every addition comes with its slope and the quotients by p,
    so that checking it takes no division. *)
From Coq Require Import Field.
From Verif Require Import Base Constants Group Field Curve PointModel EncodingModel CurveGroups.

Add Field FqF : fq_field.
Lemma of_add a b : fq_of (a + b) = qadd (fq_of a) (fq_of b).
Proof. apply fq_ext. unfold qadd. rewrite !fqv_of. apply Zplus_mod. Qed.
Lemma of_mul a b : fq_of (a * b) = qmul (fq_of a) (fq_of b).
Proof. apply fq_ext. unfold qmul. rewrite !fqv_of. apply Zmult_mod. Qed.
Lemma of_sub a b : fq_of (a - b) = qsub (fq_of a) (fq_of b).
Proof. apply fq_ext. unfold qsub. rewrite !fqv_of. apply Zminus_mod. Qed.
Lemma of_multiple a b q : a - b = q * p -> fq_of a = fq_of b.
Proof. intros H. apply fq_ext. rewrite !fqv_of. replace a with (b + q * p) by lia. apply Z.mod_add. discriminate. Qed.
Lemma of_small a : 0 <= a < p -> fqv (fq_of a) = a. Proof. intros H. rewrite fqv_of. apply Z.mod_small, H. Qed.
Lemma of_inj a b : 0 <= a < p -> 0 <= b < p -> fq_of a = fq_of b -> a = b.
Proof. intros Ha Hb H. rewrite <- (of_small a Ha), <- (of_small b Hb), H. reflexivity. Qed.

Definition pt (x y : Z) : g1_point := Some (fq_of x, fq_of y).
(** [l]: the slope; [x3], [y3]: the sum; [q1], [q2], [q3]: quotients.  [Plus] adds the base point. *)
Inductive step := Twice (l q1 x3 q2 y3 q3 : Z) | Plus (l q1 x3 q2 y3 q3 : Z).
Definition in_range (a : Z) : bool := (0 <=? a) && (a <? p).
Definition ends (l x y x' x3 q2 y3 q3 : Z) : bool :=
  (l * l - x - x' - x3 =? q2 * p) && (l * (x - x3) - y - y3 =? q3 * p) && in_range x3 && in_range y3.
Fixpoint run (x0 y0 : Z) (k x y : Z) (l : list step) : option (Z * Z * Z) :=
  match l with
  | [] => Some (k, x, y)
  | Twice l q1 x3 q2 y3 q3 :: rest =>
    if negb (y =? 0) && (l * (2 * y) - 3 * (x * x) =? q1 * p) && ends l x y x x3 q2 y3 q3 then run x0 y0 (2 * k) x3 y3 rest else None
  | Plus l q1 x3 q2 y3 q3 :: rest =>
    if negb (x =? x0) && (l * (x0 - x) - (y0 - y) =? q1 * p) && ends l x y x0 x3 q2 y3 q3 then run x0 y0 (k + 1) x3 y3 rest else None
  end.
(** [k] times the point (x0, y0) is (x, y). *)
Definition multiple_by (cert : list step) (k x0 y0 x y : Z) : bool :=
  in_range x0 && in_range y0 && (y0 * y0 mod p =? (x0 * x0 * x0 + 1) mod p) &&
  match run x0 y0 1 x0 y0 cert with Some (k', x', y') => (k' =? k) && (x' =? x) && (y' =? y) | None => false end.

Lemma in_range_spec a : in_range a = true -> 0 <= a < p. Proof. unfold in_range. rewrite andb_true_iff, Z.leb_le, Z.ltb_lt. tauto. Qed.
Lemma qsub_0 a b : qsub a b = q0 -> a = b.
Proof. intros H. transitivity (qadd (qsub a b) b); [ring|]. rewrite H. ring. Qed.
Lemma slope_ends l x y x' x3 q2 y3 q3 : ends l x y x' x3 q2 y3 q3 = true ->
  slope_point fq qmul qsub (fq_of l) (fq_of x) (fq_of y) (fq_of x') = (fq_of x3, fq_of y3) /\ 0 <= x3 < p /\ 0 <= y3 < p.
Proof.
  unfold ends. rewrite !andb_true_iff, !Z.eqb_eq. intros (((E2 & E3) & R1) & R2). apply in_range_spec in R1, R2. split; [|split; assumption].
  unfold slope_point. cbn zeta. assert (X : qsub (qsub (qmul (fq_of l) (fq_of l)) (fq_of x)) (fq_of x') = fq_of x3).
  { rewrite <- of_mul, <- !of_sub. apply (of_multiple _ _ q2). exact E2. }
  rewrite X. apply f_equal2; [reflexivity|]. rewrite <- of_sub, <- of_mul, <- of_sub. apply (of_multiple _ _ q3). exact E3.
Qed.
Lemma eqb_qeqb a b : 0 <= a < p -> 0 <= b < p -> (a =? b) = false -> qeqb (fq_of a) (fq_of b) = false.
Proof. intros Ha Hb E. unfold qeqb. rewrite !of_small by assumption. exact E. Qed.
Lemma twice_ok l q1 x y x3 q2 y3 q3 : 0 <= y < p -> (y =? 0) = false -> l * (2 * y) - 3 * (x * x) = q1 * p -> ends l x y x x3 q2 y3 q3 = true ->
  g1_add (pt x y) (pt x y) = pt x3 y3.
Proof.
  intros Hy Y0 E H. apply slope_ends in H as (H & _). unfold g1_add, pt, ec_add. assert (R : forall a, qeqb a a = true) by (intros a; apply qeqb_spec; reflexivity).
  rewrite !R. unfold ec_double. change q0 with (fq_of 0). rewrite (eqb_qeqb y 0 Hy ltac:(unfold p; lia) Y0). f_equal. rewrite <- H. f_equal.
  assert (N : qadd (fq_of y) (fq_of y) <> q0).
  { rewrite <- of_add. intros Z. apply (f_equal fqv) in Z. rewrite fqv_of in Z. change (fqv q0) with 0 in Z. apply Z.eqb_neq in Y0.
    apply Z.mod_divide in Z; [|discriminate]. destruct Z as [c Hc]. assert (c = 1) by (unfold p in *; lia). subst c. unfold p in *. lia. }
  assert (L : qmul (fq_of l) (qadd (fq_of y) (fq_of y)) = qmul (qadd Curve.q1 (qadd Curve.q1 Curve.q1)) (qmul (fq_of x) (fq_of x))).
  { change (qadd Curve.q1 (qadd Curve.q1 Curve.q1)) with (fq_of 3). rewrite <- of_add, <- !of_mul. apply (of_multiple _ _ q1). lia. }
  rewrite <- L. field. exact N.
Qed.
Lemma plus_ok l q1 x y x0 y0 x3 q2 y3 q3 : 0 <= x < p -> 0 <= x0 < p -> (x =? x0) = false -> l * (x0 - x) - (y0 - y) = q1 * p -> ends l x y x0 x3 q2 y3 q3 = true ->
  g1_add (pt x y) (pt x0 y0) = pt x3 y3.
Proof.
  intros Hx Hx0 X0 E H. apply slope_ends in H as (H & _). unfold g1_add, pt, ec_add. rewrite (eqb_qeqb x x0 Hx Hx0 X0). f_equal. rewrite <- H. f_equal.
  assert (N : qsub (fq_of x0) (fq_of x) <> q0) by (intros Z; apply qsub_0 in Z; apply (of_inj x0 x Hx0 Hx) in Z; apply Z.eqb_neq in X0; congruence).
  assert (L : qmul (fq_of l) (qsub (fq_of x0) (fq_of x)) = qsub (fq_of y0) (fq_of y)).
  { rewrite <- !of_sub, <- of_mul. apply (of_multiple _ _ q1). exact E. }
  rewrite <- L. field. exact N.
Qed.
Lemma g1_of_add P Q : on_g1 P = true -> on_g1 Q = true -> g1_of (g1_add P Q) = ga (g1_of P) (g1_of Q) /\ on_g1 (g1_add P Q) = true.
Proof.
  intros HP HQ. assert (X : g1_to (ga (g1_of P) (g1_of Q)) = g1_add P Q) by (rewrite g1_to_add, !g1_to_of by assumption; reflexivity).
  rewrite <- X. split; [apply g1_of_to|apply g1_to_on].
Qed.
Lemma run_ok x0 y0 l : 0 <= x0 < p -> on_g1 (pt x0 y0) = true -> forall k x y k' x' y', 0 <= x < p -> 0 <= y < p -> on_g1 (pt x y) = true -> g1_of (pt x y) = smul k (g1_of (pt x0 y0)) ->
  run x0 y0 k x y l = Some (k', x', y') -> on_g1 (pt x' y') = true /\ g1_of (pt x' y') = smul k' (g1_of (pt x0 y0)).
Proof.
  intros R0 O0. induction l as [|[l q1 x3 q2 y3 q3|l q1 x3 q2 y3 q3] rest IH]; intros k x y k' x' y' Rx Ry O E H; cbn [run] in H.
  - injection H as <- <- <-. split; assumption.
  - destruct (negb (y =? 0) && (l * (2 * y) - 3 * (x * x) =? q1 * p) && ends l x y x x3 q2 y3 q3) eqn:C; [|discriminate H].
    apply andb_true_iff in C as (C & C3). apply andb_true_iff in C as (C1 & C2). apply negb_true_iff in C1. apply Z.eqb_eq in C2.
    pose proof (twice_ok _ _ _ _ _ _ _ _ Ry C1 C2 C3) as S. destruct (slope_ends _ _ _ _ _ _ _ _ C3) as (_ & R1 & R2). destruct (g1_of_add _ _ O O) as [A B]. rewrite S in A, B.
    apply (IH _ _ _ _ _ _ R1 R2 B) in H; [exact H|]. rewrite A, E, <- smul_add. f_equal. lia.
  - destruct (negb (x =? x0) && (l * (x0 - x) - (y0 - y) =? q1 * p) && ends l x y x0 x3 q2 y3 q3) eqn:C; [|discriminate H].
    apply andb_true_iff in C as (C & C3). apply andb_true_iff in C as (C1 & C2). apply negb_true_iff in C1. apply Z.eqb_eq in C2.
    pose proof (plus_ok _ _ _ _ _ _ _ _ _ _ Rx R0 C1 C2 C3) as S. destruct (slope_ends _ _ _ _ _ _ _ _ C3) as (_ & R1 & R2). destruct (g1_of_add _ _ O O0) as [A B]. rewrite S in A, B.
    apply (IH _ _ _ _ _ _ R1 R2 B) in H; [exact H|]. rewrite A, E. symmetry. apply smul_succ.
Qed.
Lemma multiple_ok cert k x0 y0 x y : multiple_by cert k x0 y0 x y = true ->
  on_g1 (pt x0 y0) = true /\ on_g1 (pt x y) = true /\ smul k (g1_of (pt x0 y0)) = g1_of (pt x y).
Proof.
  unfold multiple_by. rewrite !andb_true_iff. intros (((R1 & R2) & C) & H). apply in_range_spec in R1, R2. apply Z.eqb_eq in C.
  assert (O : on_g1 (pt x0 y0) = true).
  { unfold on_g1, pt, on_curve. apply qeqb_spec. unfold G1_B. rewrite <- !of_mul. change q1 with (fq_of 1). rewrite <- of_add. apply fq_ext. rewrite !fqv_of, C. f_equal. ring. }
  split; [exact O|]. destruct (run x0 y0 1 x0 y0 cert) as [[[k' x'] y']|] eqn:E; [|discriminate H]. rewrite !andb_true_iff, !Z.eqb_eq in H. destruct H as [[-> ->] ->].
  apply (run_ok x0 y0 cert R1 O) in E; try assumption; [|symmetry; apply smul_1]. destruct E as [A B]. split; [exact A|symmetry; exact B].
Qed.
