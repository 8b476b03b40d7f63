(** C80: the addition formulas of the circuit against the group law.
    The circuit allocates points without the check of the prime order; the formulas have exceptions where a difference has order two. *)
From Verif Require Import Base Constants Group Field Curve EncodingModel PointModel HashCurveModel Circuit GadgetModel CurveGroups CompleteModel CompleteSpec CompleteProofs CompleteCurves.
Notation stands1 := (represents fq q0 qmul).
Notation stands2 := (represents fq2 q2_0 q2mul).

(** The curve of the public keys has no points of order two: the sum is right for all points of it, of prime order or not. *)
Theorem C80_keys_add : forall q q' P Q, on_twist P = true -> on_twist Q = true -> stands2 q P -> stands2 q' Q ->
  stands2 (g2_p_add q q') (g2_add P Q).
Proof. exact twist_add. Qed.
(** So the aggregation with a bitmap in coordinates computes and accepts what the aggregation in the group does. *)
Theorem C80_aggregate : forall kb kb' pad acc (padding A : g2_curve), Forall2 (fun '(q, bit) '(K, bit') => bit = bit' /\ stands2 q (g2_to K)) kb kb' ->
  stands2 pad (g2_to padding) -> stands2 acc (g2_to A) ->
  exists q (R : g2_curve) ok, prover (g2_p_aggregate_loop kb pad acc) = Val (q, ok) /\ prover (aggregate_loop kb' padding A) = Val (R, ok) /\ stands2 q (g2_to R) /\
    (forall x, holds (g2_p_aggregate_loop kb pad acc) x <-> ok = true /\ x = q) /\ (forall X, holds (aggregate_loop kb' padding A) X <-> ok = true /\ X = R).
Proof. exact twist_aggregate. Qed.
(** And the affine coordinates of the sum of all keys are those of the sum in the group; there are none exactly if that sum is zero. *)
Theorem C80_all_keys : forall qs Ps c, Forall2 stands2 qs Ps -> Forall (fun P => on_twist P = true) Ps ->
  holds (g2_p_to_affine (g2_p_aggregate_all qs)) c <-> g2_sum Ps = Some c.
Proof. exact twist_all. Qed.
(** The triple (0 : 0 : 0), which satisfies the curve equation, cannot sign and cannot be among the keys of the last epoch. *)
Theorem C80_zero_signer : forall kb pad acc x, In ((q2_0, q2_0, q2_0), true) kb -> ~ holds (g2_p_aggregate_loop kb pad acc) x.
Proof. exact twist_degenerate_signer. Qed.
Theorem C80_zero_key : forall qs c, In (q2_0, q2_0, q2_0) qs -> ~ holds (g2_p_to_affine (g2_p_aggregate_all qs)) c.
Proof. exact twist_degenerate_all. Qed.

(** The curve of the hashes has a point of order two, and the formulas have exceptions. *)
Theorem C80_hash_add : forall q q' P Q, on_g1 P = true -> on_g1 Q = true -> stands1 q P -> stands1 q' Q -> ~ order_two fq q0 (g1_add P (g1_neg Q)) ->
  stands1 (g1_p_add q q') (g1_add P Q).
Proof. exact g1_add_exact. Qed.
Theorem C80_hash_add_nothing : forall q q' P Q, on_g1 P = true -> on_g1 Q = true -> stands1 q P -> stands1 q' Q -> order_two fq q0 (g1_add P (g1_neg Q)) ->
  g1_p_add q q' = (q0, q0, q0).
Proof. exact g1_add_nothing. Qed.
Theorem C80_hash_add_refuted : exists q q' P Q, on_g1 P = true /\ on_g1 Q = true /\ stands1 q P /\ stands1 q' Q /\ forall S, ~ stands1 (g1_p_add q q') S.
Proof. exact g1_refuted. Qed.
(** None of them occurs in the multiplication by the cofactor, for any point that it does not send to zero, nor in any other by up to 250 bits. *)
Theorem C80_multiple : forall bits q P, on_g1 P = true -> smul G1_COFACTOR (g1_of P) <> gz -> (length bits <= 250)%nat -> stands1 q P ->
  stands1 (g1_p_mul_le bits q) (g1_to (smul (bits_value bits) (g1_of P))).
Proof. exact mul_represents. Qed.
Theorem C80_cofactor : forall q P, on_g1 P = true -> smul G1_COFACTOR (g1_of P) <> gz -> stands1 q P ->
  stands1 (g1_p_scale_by_cofactor q) (g1_to (smul G1_COFACTOR (g1_of P))).
Proof. exact cofactor_represents. Qed.
(** Nor are two summands ever equal, opposite or zero, once the lowest set bit is passed: formulas with those exceptions would do as well. *)
Theorem C80_summands : forall (P : g1_curve) a i, smul G1_COFACTOR P <> gz -> (i <= 250)%nat -> 0 < a < 2 ^ Z.of_nat i ->
  smul a P <> gz /\ smul (2 ^ Z.of_nat i) P <> gz /\ smul a P <> smul (2 ^ Z.of_nat i) P /\ smul a P <> gn (smul (2 ^ Z.of_nat i) P).
Proof. exact no_exceptions. Qed.
Print Assumptions C80_keys_add.
Print Assumptions C80_aggregate.
Print Assumptions C80_all_keys.
Print Assumptions C80_zero_signer.
Print Assumptions C80_zero_key.
Print Assumptions C80_hash_add.
Print Assumptions C80_hash_add_nothing.
Print Assumptions C80_hash_add_refuted.
Print Assumptions C80_multiple.
Print Assumptions C80_cofactor.
Print Assumptions C80_summands.
