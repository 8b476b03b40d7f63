(** Multiples of points of the twist of G2 by certificates, as in PointCert.v. *)
From Coq Require Import Field.
From Verif Require Import Base Constants Group Field Curve PointModel EncodingModel CurveGroups PointCert.

Add Field Fq2F : fq2_field.
Definition z2 := (Z * Z)%type.
Definition zadd2 (a b : z2) : z2 := (fst a + fst b, snd a + snd b).
Definition zsub2 (a b : z2) : z2 := (fst a - fst b, snd a - snd b).
Definition zmul2 (a b : z2) : z2 :=
  let m0 := fst a * fst b in let m1 := snd a * snd b in (m0 - 5 * m1, (fst a + snd a) * (fst b + snd b) - m0 - m1).
Definition zsq2 (a : z2) : z2 := (fst a * fst a - 5 * (snd a * snd a), 2 * (fst a * snd a)).
Definition zscale (k : Z) (a : z2) : z2 := (k * fst a, k * snd a).
Lemma of_add2 a b : q2_of (zadd2 a b) = q2add (q2_of a) (q2_of b).
Proof. unfold q2_of, zadd2, q2add. cbn [fst snd]. rewrite !of_add. reflexivity. Qed.
Lemma of_sub2 a b : q2_of (zsub2 a b) = q2sub (q2_of a) (q2_of b).
Proof. unfold q2_of, zsub2, q2sub. cbn [fst snd]. rewrite !of_sub. reflexivity. Qed.
Lemma zmul2_eq a b : zmul2 a b = (fst a * fst b - 5 * (snd a * snd b), fst a * snd b + snd a * fst b).
Proof. unfold zmul2. cbn zeta. f_equal. ring. Qed.
Lemma of_mul2 a b : q2_of (zmul2 a b) = q2mul (q2_of a) (q2_of b).
Proof. rewrite zmul2_eq. unfold q2_of, q2mul. cbn [fst snd]. rewrite of_sub, of_add, !of_mul. reflexivity. Qed.
Lemma zsq2_eq a : zsq2 a = zmul2 a a. Proof. rewrite zmul2_eq. unfold zsq2. f_equal. ring. Qed.
Definition multiple2 (a q : z2) : bool := (fst a =? p * fst q) && (snd a =? p * snd q).
Lemma of_multiple2 a b q : multiple2 (zsub2 a b) q = true -> q2_of a = q2_of b.
Proof.
  unfold multiple2, zsub2. cbn [fst snd]. rewrite andb_true_iff, !Z.eqb_eq. intros [H0 H1]. unfold q2_of.
  f_equal; [apply (of_multiple _ _ (fst q))|apply (of_multiple _ _ (snd q))]; lia.
Qed.
Definition pt2 (x y : z2) : g2_point := Some (q2_of x, q2_of y).
Definition in_range2 (a : z2) : bool := in_range (fst a) && in_range (snd a).
Definition zeqb2 (a b : z2) : bool := (fst a =? fst b) && (snd a =? snd b).
Lemma of_inj2 a b : in_range2 a = true -> in_range2 b = true -> q2_of a = q2_of b -> a = b.
Proof.
  unfold in_range2. rewrite !andb_true_iff. intros [A0 A1] [B0 B1] H. apply in_range_spec in A0, A1, B0, B1. destruct a as [a0 a1], b as [b0 b1]. cbn [fst snd] in *.
  f_equal; apply of_inj; try assumption; [exact (f_equal fst H)|exact (f_equal snd H)].
Qed.
Lemma zeqb2_spec a b : zeqb2 a b = true <-> a = b.
Proof. unfold zeqb2. rewrite andb_true_iff, !Z.eqb_eq. destruct a, b. cbn [fst snd]. split; [intros [-> ->]; reflexivity|intros H; split; [exact (f_equal fst H)|exact (f_equal snd H)]]. Qed.
Inductive step2 := Twice2 (l q1 x3 q2 y3 q3 : z2) | Plus2 (l q1 x3 q2 y3 q3 : z2).
Definition ends2 (l x y x' x3 q2 y3 q3 : z2) : bool :=
  multiple2 (zsub2 (zsub2 (zsub2 (zsq2 l) x) x') x3) q2 && multiple2 (zsub2 (zsub2 (zmul2 l (zsub2 x x3)) y) y3) q3 && in_range2 x3 && in_range2 y3.
Fixpoint run2 (x0 y0 : z2) (k : Z) (x y : z2) (l : list step2) : option (Z * z2 * z2) :=
  match l with
  | [] => Some (k, x, y)
  | Twice2 l q1 x3 q2 y3 q3 :: rest =>
    if negb (zeqb2 y (0, 0)) && multiple2 (zsub2 (zmul2 l (zadd2 y y)) (zscale 3 (zsq2 x))) q1 && ends2 l x y x x3 q2 y3 q3 then run2 x0 y0 (2 * k) x3 y3 rest else None
  | Plus2 l q1 x3 q2 y3 q3 :: rest =>
    if negb (zeqb2 x x0) && multiple2 (zsub2 (zmul2 l (zsub2 x0 x)) (zsub2 y0 y)) q1 && ends2 l x y x0 x3 q2 y3 q3 then run2 x0 y0 (k + 1) x3 y3 rest else None
  end.
Lemma q2sub_0 a b : q2sub a b = q2_0 -> a = b.
Proof. intros H. transitivity (q2add (q2sub a b) b); [ring|]. rewrite H. ring. Qed.
Lemma slope_ends2 l x y x' x3 q2 y3 q3 : ends2 l x y x' x3 q2 y3 q3 = true ->
  slope_point fq2 q2mul q2sub (q2_of l) (q2_of x) (q2_of y) (q2_of x') = (q2_of x3, q2_of y3) /\ in_range2 x3 = true /\ in_range2 y3 = true.
Proof.
  unfold ends2. rewrite !andb_true_iff. intros (((E2 & E3) & R1) & R2). split; [|split; assumption].
  unfold slope_point. cbn zeta. assert (X : q2sub (q2sub (q2mul (q2_of l) (q2_of l)) (q2_of x)) (q2_of x') = q2_of x3).
  { rewrite <- of_mul2, <- !of_sub2. apply (of_multiple2 _ _ q2). rewrite <- zsq2_eq. exact E2. }
  rewrite X. apply f_equal2; [reflexivity|]. rewrite <- of_sub2, <- of_mul2, <- of_sub2. apply (of_multiple2 _ _ q3). exact E3.
Qed.
Lemma zeqb_qeqb2 a b : in_range2 a = true -> in_range2 b = true -> zeqb2 a b = false -> q2eqb (q2_of a) (q2_of b) = false.
Proof.
  intros Ha Hb E. destruct (q2eqb (q2_of a) (q2_of b)) eqn:H; [exfalso|reflexivity]. apply q2eqb_spec in H. apply (of_inj2 a b Ha Hb), zeqb2_spec in H. congruence.
Qed.
Lemma range_0 : in_range2 (0, 0) = true. Proof. reflexivity. Qed.
Lemma q2_integral a b : q2mul a b = q2_0 -> a <> q2_0 -> b = q2_0.
Proof. intros H N. transitivity (q2div (q2mul a b) a); [field; exact N|]. rewrite H. field. exact N. Qed.
Lemma twice_ok2 l q1 x y x3 q2 y3 q3 : in_range2 y = true -> zeqb2 y (0, 0) = false -> multiple2 (zsub2 (zmul2 l (zadd2 y y)) (zscale 3 (zsq2 x))) q1 = true ->
  ends2 l x y x x3 q2 y3 q3 = true -> g2_add (pt2 x y) (pt2 x y) = pt2 x3 y3.
Proof.
  intros Hy Y0 E H. apply slope_ends2 in H as (H & _). unfold g2_add, pt2, ec_add. assert (R : forall a, q2eqb a a = true) by (intros a; apply q2eqb_spec; reflexivity).
  pose proof (zeqb_qeqb2 y (0, 0) Hy range_0 Y0) as Y. change (q2_of (0, 0)) with q2_0 in Y.
  rewrite !R. unfold ec_double. rewrite Y. f_equal. rewrite <- H. f_equal.
  assert (N : q2add (q2_of y) (q2_of y) <> q2_0).
  { intros Z. assert (Z2 : q2_of y = q2_0) by (apply (q2_integral (q2add q2_1 q2_1)); [rewrite <- Z; ring|exact q2_two]). apply q2eqb_spec in Z2. congruence. }
  assert (L : q2mul (q2_of l) (q2add (q2_of y) (q2_of y)) = q2mul (q2add q2_1 (q2add q2_1 q2_1)) (q2mul (q2_of x) (q2_of x))).
  { rewrite <- of_add2, <- of_mul2, (of_multiple2 _ _ _ E), zsq2_eq. rewrite <- of_mul2. generalize (zmul2 x x). intros w.
    assert (S : zscale 3 w = zadd2 w (zadd2 w w)) by (unfold zscale, zadd2; cbn [fst snd]; f_equal; ring). rewrite S, !of_add2. ring. }
  rewrite <- L. field. exact N.
Qed.
Lemma plus_ok2 l q1 x y x0 y0 x3 q2 y3 q3 : in_range2 x = true -> in_range2 x0 = true -> zeqb2 x x0 = false -> multiple2 (zsub2 (zmul2 l (zsub2 x0 x)) (zsub2 y0 y)) q1 = true ->
  ends2 l x y x0 x3 q2 y3 q3 = true -> g2_add (pt2 x y) (pt2 x0 y0) = pt2 x3 y3.
Proof.
  intros Hx Hx0 X0 E H. apply slope_ends2 in H as (H & _). unfold g2_add, pt2, ec_add. pose proof (zeqb_qeqb2 x x0 Hx Hx0 X0) as X. rewrite X. f_equal. rewrite <- H. f_equal.
  assert (N : q2sub (q2_of x0) (q2_of x) <> q2_0) by (intros Z; apply q2sub_0 in Z; symmetry in Z; apply q2eqb_spec in Z; congruence).
  assert (L : q2mul (q2_of l) (q2sub (q2_of x0) (q2_of x)) = q2sub (q2_of y0) (q2_of y)).
  { rewrite <- !of_sub2, <- of_mul2. apply (of_multiple2 _ _ q1). exact E. }
  rewrite <- L. field. exact N.
Qed.
Lemma g2_of_add P Q : on_twist P = true -> on_twist Q = true -> g2_of (g2_add P Q) = ga (g2_of P) (g2_of Q) /\ on_twist (g2_add P Q) = true.
Proof.
  intros HP HQ. assert (X : g2_to (ga (g2_of P) (g2_of Q)) = g2_add P Q) by (rewrite g2_to_add, !g2_to_of by assumption; reflexivity).
  rewrite <- X. split; [apply g2_of_to|apply g2_to_on].
Qed.
Lemma run_ok2 x0 y0 l : in_range2 x0 = true -> on_twist (pt2 x0 y0) = true -> forall k x y k' x' y', in_range2 x = true -> in_range2 y = true -> on_twist (pt2 x y) = true ->
  g2_of (pt2 x y) = smul k (g2_of (pt2 x0 y0)) -> run2 x0 y0 k x y l = Some (k', x', y') -> on_twist (pt2 x' y') = true /\ g2_of (pt2 x' y') = smul k' (g2_of (pt2 x0 y0)).
Proof.
  intros R0 O0. induction l as [|[l q1 x3 q2 y3 q3|l q1 x3 q2 y3 q3] rest IH]; intros k x y k' x' y' Rx Ry O E H; cbn [run2] in H.
  - assert (H' : (k, x, y) = (k', x', y')) by congruence. assert (k = k') by congruence. assert (x = x') by congruence. assert (y = y') by congruence. subst. split; assumption.
  - match type of H with (if ?c then _ else _) = _ => destruct c eqn:C; [|discriminate H] end.
    apply andb_true_iff in C as (C & C3). apply andb_true_iff in C as (C1 & C2). apply negb_true_iff in C1.
    pose proof (twice_ok2 _ _ _ _ _ _ _ _ Ry C1 C2 C3) as S. destruct (slope_ends2 _ _ _ _ _ _ _ _ C3) as (_ & R1 & R2). destruct (g2_of_add _ _ O O) as [A B]. rewrite S in A, B.
    apply (IH _ _ _ _ _ _ R1 R2 B) in H; [exact H|]. rewrite A, E, <- smul_add. f_equal. lia.
  - match type of H with (if ?c then _ else _) = _ => destruct c eqn:C; [|discriminate H] end.
    apply andb_true_iff in C as (C & C3). apply andb_true_iff in C as (C1 & C2). apply negb_true_iff in C1.
    pose proof (plus_ok2 _ _ _ _ _ _ _ _ _ _ Rx R0 C1 C2 C3) as S. destruct (slope_ends2 _ _ _ _ _ _ _ _ C3) as (_ & R1 & R2). destruct (g2_of_add _ _ O O0) as [A B]. rewrite S in A, B.
    apply (IH _ _ _ _ _ _ R1 R2 B) in H; [exact H|]. rewrite A, E. symmetry. apply smul_succ.
Qed.
(** [k] times the point (x0, y0) of the twist is (x, y). *)
Definition multiple_by2 (cert : list step2) (k : Z) (x0 y0 x y : z2) : bool :=
  in_range2 x0 && in_range2 y0 && match run2 x0 y0 1 x0 y0 cert with Some (k', x', y') => (k' =? k) && zeqb2 x' x && zeqb2 y' y | None => false end.
Lemma multiple_ok2 cert k x0 y0 x y : on_twist (pt2 x0 y0) = true -> multiple_by2 cert k x0 y0 x y = true ->
  on_twist (pt2 x y) = true /\ smul k (g2_of (pt2 x0 y0)) = g2_of (pt2 x y).
Proof.
  intros O. unfold multiple_by2. rewrite !andb_true_iff. intros ((R1 & R2) & H).
  destruct (run2 x0 y0 1 x0 y0 cert) as [[[k' x'] y']|] eqn:E; [|discriminate H]. rewrite !andb_true_iff, Z.eqb_eq, !zeqb2_spec in H. destruct H as [[-> ->] ->].
  apply (run_ok2 x0 y0 cert R1 O) in E; try assumption; [|symmetry; apply smul_1]. destruct E as [A B]. split; [exact A|symmetry; exact B].
Qed.
