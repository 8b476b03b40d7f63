(** The integer solutions of u^2 + 3 v^2 = 4 p and of u^2 + 3 v^2 = 4 p^2, for a prime p of which one solution
    t^2 + 3 f^2 = 4 p is known. *)
From Coq Require Import ZArith Znumtheory Lia Zpow_facts.
Local Open Scope Z_scope.

Section Norm.
  Context (p t f : Z).
  Hypothesis Hp : prime p.
  Hypothesis p3 : 3 < p.
  Hypothesis tf : t * t + 3 * f * f = 4 * p.
  (** the units: j^2 + 3 k^2 = 16 *)
  Definition unit_pair (j k : Z) : Prop := (k = 0 /\ (j = 4 \/ j = -4)) \/ ((k = 2 \/ k = -2) /\ (j = 2 \/ j = -2)).
  Lemma units j k : j * j + 3 * k * k = 16 -> unit_pair j k.
  Proof.
    intros H. unfold unit_pair. assert (-2 <= k <= 2) by nia. assert (-4 <= j <= 4) by nia.
    assert (K : k = -2 \/ k = -1 \/ k = 0 \/ k = 1 \/ k = 2) by lia. assert (J : j = -4 \/ j = -3 \/ j = -2 \/ j = -1 \/ j = 0 \/ j = 1 \/ j = 2 \/ j = 3 \/ j = 4) by lia.
    destruct K as [-> |[-> |[-> |[-> | ->]]]]; destruct J as [-> |[-> |[-> |[-> |[-> |[-> |[-> |[-> | ->]]]]]]]]; lia.
  Qed.
  Lemma unit_opp j k : unit_pair j k -> unit_pair j (- k). Proof. unfold unit_pair. lia. Qed.
  Lemma p_square a : (p | a * a) -> (p | a). Proof. intros H. destruct (prime_mult p Hp a a H); assumption. Qed.
  (** two multiples *)
  Lemma both_multiples A B m : A * A + 3 * B * B = p * p * m -> (p | B) -> exists j k, A = p * j /\ B = p * k /\ j * j + 3 * k * k = m.
  Proof.
    intros H [k ->]. assert (D : (p | A)).
    { apply p_square. exists (p * m - 3 * k * k * p). transitivity (p * p * m - 3 * (k * p) * (k * p)); [rewrite <- H; ring|ring]. }
    destruct D as [j ->]. exists j, k. split; [lia|]. split; [lia|].
    apply (Z.mul_reg_l _ _ (p * p)); [intros Z0; apply Z.mul_eq_0 in Z0; lia|]. rewrite <- H. ring.
  Qed.
  Lemma norm_p_1 u v : u * u + 3 * v * v = 4 * p -> (p | u * f - v * t) -> exists j k, unit_pair j k /\ 4 * u = t * j + 3 * f * k /\ 4 * v = f * j - t * k.
  Proof.
    intros H D. destruct (both_multiples (u * t + 3 * v * f) (u * f - v * t) 16) as (j & k & Ej & Ek & E).
    - replace (p * p * 16) with ((4 * p) * (4 * p)) by ring. rewrite <- H at 1. rewrite <- tf. ring.
    - exact D.
    - exists j, k. split; [apply units, E|]. split.
      + apply (Z.mul_reg_l _ _ p); [lia|]. transitivity (u * (4 * p)); [ring|]. rewrite <- tf.
        transitivity (t * (u * t + 3 * v * f) + 3 * f * (u * f - v * t)); [ring|]. rewrite Ej, Ek. ring.
      + apply (Z.mul_reg_l _ _ p); [lia|]. transitivity (v * (4 * p)); [ring|]. rewrite <- tf.
        transitivity (f * (u * t + 3 * v * f) - t * (u * f - v * t)); [ring|]. rewrite Ej, Ek. ring.
  Qed.
  (** the solutions of norm p are the units times t + f sqrt(-3) or its conjugate *)
  Lemma norm_p u v : u * u + 3 * v * v = 4 * p -> exists j k s, unit_pair j k /\ (s = 1 \/ s = -1) /\ 4 * u = t * j + 3 * f * k /\ 4 * v = s * (f * j - t * k).
  Proof.
    intros H. assert (D : (p | (u * f - v * t) * (u * f + v * t))).
    { exists (4 * (f * f - v * v)). transitivity (f * f * (u * u + 3 * v * v) - v * v * (t * t + 3 * f * f)); [ring|]. rewrite H, tf. ring. }
    destruct (prime_mult p Hp _ _ D) as [D1|D1].
    - destruct (norm_p_1 u v H D1) as (j & k & U & E1 & E2). exists j, k, 1. split; [exact U|]. split; [left; reflexivity|]. split; [exact E1|]. lia.
    - destruct (norm_p_1 u (- v)) as (j & k & U & E1 & E2); [lia|replace (u * f - - v * t) with (u * f + v * t) by ring; exact D1|].
      exists j, k, (-1). split; [exact U|]. split; [right; reflexivity|]. split; [exact E1|]. lia.
  Qed.
  Lemma norm_p_only u v : u * u + 3 * v * v = 4 * p -> exists j k, unit_pair j k /\ 4 * u = t * j + 3 * f * k.
  Proof. intros H. destruct (norm_p u v H) as (j & k & s & U & _ & E & _). exists j, k. split; assumption. Qed.
  Lemma even_even j k m : j * j + 3 * k * k = 16 * m -> exists j' k', j = 2 * j' /\ k = 2 * k'.
  Proof.
    intros H. destruct (Z.Even_or_Odd j) as [[a ->]|[a ->]], (Z.Even_or_Odd k) as [[b ->]|[b ->]]; [exists a, b; split; reflexivity|exfalso; lia|exfalso; lia|exfalso].
    (* both odd: 4 modulo 8 *)
    destruct (Z.Even_or_Odd a) as [[x ->]|[x ->]], (Z.Even_or_Odd b) as [[y ->]|[y ->]]; lia.
  Qed.
  Lemma norm_pp_1 a d : a * a + 3 * d * d = 4 * (p * p) -> (p | a * t + 3 * d * f) -> exists u v, u * u + 3 * v * v = 4 * p /\ 2 * a = t * u - 3 * f * v.
  Proof.
    intros H [j' D]. assert (Q : (a * t + 3 * d * f) * (a * t + 3 * d * f) + 3 * (d * t - a * f) * (d * t - a * f) = p * p * (16 * p)).
    { transitivity ((a * a + 3 * d * d) * (t * t + 3 * f * f)); [ring|]. rewrite H, tf. ring. }
    assert (D2 : (p | d * t - a * f)).
    { assert (X : (p | 3 * ((d * t - a * f) * (d * t - a * f)))).
      { exists (p * (16 * p) - j' * j' * p). transitivity (p * p * (16 * p) - (a * t + 3 * d * f) * (a * t + 3 * d * f)); [rewrite <- Q; ring|]. rewrite D. ring. }
      destruct (prime_mult p Hp _ _ X) as [Y|Y]; [apply Z.divide_pos_le in Y; lia|apply p_square, Y]. }
    destruct (both_multiples _ _ _ Q D2) as (j & k & Ej & Ek & E). destruct (even_even j k p E) as (u & v & -> & ->).
    exists u, v. split; [lia|]. apply (Z.mul_reg_l _ _ (2 * p)); [lia|]. transitivity (a * (4 * p)); [ring|]. rewrite <- tf.
    transitivity (t * (a * t + 3 * d * f) - 3 * f * (d * t - a * f)); [ring|]. rewrite Ej, Ek. ring.
  Qed.
  (** the solutions of norm p^2 *)
  Lemma norm_pp a d : a * a + 3 * d * d = 4 * (p * p) -> exists j k, unit_pair j k /\ (2 * a = p * j \/ 8 * a = (t * t - 3 * f * f) * j + 6 * t * f * k).
  Proof.
    intros H. assert (C : exists u v, u * u + 3 * v * v = 4 * p /\ 2 * a = t * u - 3 * f * v).
    { assert (D : (p | (a * t + 3 * d * f) * (a * t - 3 * d * f))).
      { exists (4 * p * t * t - 12 * d * d). transitivity (t * t * (a * a + 3 * d * d) - 3 * d * d * (t * t + 3 * f * f)); [ring|]. rewrite H, tf. ring. }
      destruct (prime_mult p Hp _ _ D) as [D1|D1].
      - exact (norm_pp_1 a d H D1).
      - apply (norm_pp_1 a (- d)); [lia|]. replace (a * t + 3 * - d * f) with (a * t - 3 * d * f) by ring. exact D1. }
    destruct C as (u & v & E & Ea). destruct (norm_p u v E) as (j & k & s & U & [-> | ->] & E1 & E2).
    - exists j, k. split; [exact U|right]. transitivity (t * (4 * u) - 3 * f * (4 * v)); [lia|]. rewrite E1, E2. ring.
    - exists j, k. split; [exact U|left]. apply (Z.mul_reg_l _ _ 4); [lia|]. transitivity (t * (4 * u) - 3 * f * (4 * v)); [lia|]. rewrite E1, E2.
      transitivity (j * (t * t + 3 * f * f)); [ring|]. rewrite tf. ring.
  Qed.
End Norm.
