(** C31-C36: the BLS gadgets.  [holds c x]: some assignment satisfies all constraints of [c] with output
    [x]; [prover c]: the run of the repository's own witness generation (output, all constraints satisfied). *)
From Verif Require Import Base Constants Group Field Curve EncodingModel EncodingSpec CodecSpec Circuit CircuitFacts GadgetModel GadgetSpec CubeFacts GadgetProofs GadgetNative.

(** ** C31 *)
Theorem C31_is_eq_zero : forall x b, holds (is_eq_zero x) b <-> (b = true <-> value x = q0).
Proof. exact is_eq_zero_holds. Qed.
Theorem C31_is_eq_zero_honest : forall x, exists b, prover (is_eq_zero x) = Val (b, true) /\ (b = true <-> value x = q0).
Proof. intros x. exists (qeqb (value x) q0). split; [apply is_eq_zero_prover|apply qeqb_spec]. Qed.

(** ** C32 *)
Theorem C32_normalize : forall v b, fqv v <> (p - 1) / 2 ->
  holds (normalize (Var v)) b <-> (b = true <-> (p - 1) / 2 < fqv v).
Proof.
  intros v b H. change ((p - 1) / 2) with half in *. rewrite normalize_holds.
  destruct b; intuition (try lia). 
Qed.
Theorem C32_midpoint_refuted : exists v, forall b, holds (normalize (Var v)) b.
Proof. exists halfq. intros b. apply normalize_holds. rewrite halfq_val. destruct b; lia. Qed.
Theorem C32_midpoint_only : forall v, (forall b, holds (normalize (Var v)) b) -> fqv v = (p - 1) / 2.
Proof.
  intros v H. change ((p - 1) / 2) with half.
  assert (A : half <= fqv v) by exact (proj1 (normalize_holds v true) (H true)).
  assert (B : fqv v <= half) by exact (proj1 (normalize_holds v false) (H false)). lia.
Qed.
Theorem C32_constants : forall v b, holds (normalize (Constant v)) b <-> (b = true <-> (p - 1) / 2 < fqv v).
Proof. exact normalize_const. Qed.
Theorem C32_normalize_honest : forall v, exists b, prover (normalize (Var v)) = Val (b, true) /\ (b = true <-> (p - 1) / 2 < fqv v).
Proof. intros v. exists (half <? fqv v). split; [apply normalize_prover|apply Z.ltb_lt]. Qed.

(** ** C33 *)
Theorem C33_g1_sign : forall Q b, g1_equation Q -> holds (g1_y_to_bit (snd Q)) b <-> (b = true <-> larger1 (snd Q)).
Proof. intros Q b H. rewrite g1_y_to_bit_holds. pose proof (g1_no_midpoint Q H). tauto. Qed.
Theorem C33_g2_sign : forall Q b, g2_equation Q ->
  holds (g2_y_to_bit (snd Q)) b <-> (b = true <-> larger2 (snd Q)) \/ midpoint (snd (snd Q)).
Proof. intros Q b H. rewrite g2_y_to_bit_holds. pose proof (g2_no_midpoint Q H). tauto. Qed.
Theorem C33_g2_encoding : forall x y b, g2_equation (x, y) -> ~ midpoint (snd y) ->
  holds (g2_y_to_bit y) b <-> nth_error (enc_key (Some (x, y))) 754 = Some b.
Proof. exact g2_sign_encoding. Qed.
Theorem C33_any_y : forall y b,
  (holds (g1_y_to_bit y) b <-> (b = true <-> larger1 y) \/ midpoint y).
Proof. exact g1_y_to_bit_holds. Qed.
Theorem C33_honest : (forall y, exists b, prover (g1_y_to_bit y) = Val (b, true) /\ (b = true <-> larger1 y)) /\
  (forall x y, exists b, prover (g2_y_to_bit y) = Val (b, true) /\ nth_error (enc_key (Some (x, y))) 754 = Some b).
Proof.
  split; [exact g1_y_to_bit_prover|]. intros x y. exists (is_over_half y). split; [apply g2_y_to_bit_prover|apply EncodingProofs.enc_key_layout].
Qed.
(** On the twist the exception is real: a point whose sign bit can be chosen. *)
Theorem C33_g2_midpoint_refuted : exists Q, g2_equation Q /\ forall b, holds (g2_y_to_bit (snd Q)) b.
Proof. exact free_sign_point. Qed.

(** ** C34 *)
Theorem C34_threshold : forall debug bits maximum v, Z.of_nat (length bits) < p ->
  holds (enforce_maximum_occurrences_in_bitmap debug bits maximum v) tt <->
  bits <> [] /\ positions v bits <= fqv maximum < (p - 1) / 2.
Proof. exact bitmap_holds. Qed.
Theorem C34_honest : forall debug bits maximum v, Z.of_nat (length bits) < p -> positions v bits < 256 ->
  prover (enforce_maximum_occurrences_in_bitmap debug bits maximum v) = Val (tt, true) <->
  holds (enforce_maximum_occurrences_in_bitmap debug bits maximum v) tt.
Proof. exact bitmap_honest. Qed.
Theorem C34_overflow : forall debug bits maximum v, Z.of_nat (length bits) < p -> 256 <= positions v bits ->
  prover (enforce_maximum_occurrences_in_bitmap debug bits maximum v) = if debug then Panics else Val (tt, false).
Proof. exact bitmap_overflow. Qed.

(** ** C35 *)
Theorem C35_aggregate : forall (E2 : grp) keys bits (padding out : E2),
  holds (enforce_aggregated_pubkeys keys bits padding) out <->
  exists l, signers keys bits l /\ ~ In padding l /\ out = sum l.
Proof. intros E2. exact aggregated_holds. Qed.
Theorem C35_honest : forall (E2 : grp) keys bits (padding : E2) l, signers keys bits l -> ~ In padding l ->
  prover (enforce_aggregated_pubkeys keys bits padding) = Val (sum l, true).
Proof. intros E2. exact aggregated_prover. Qed.
Theorem C35_lengths : forall (E2 : grp) keys bits (padding : E2),
  (length bits = length keys <-> exists l, signers keys bits l) /\
  (length bits <> length keys -> prover (enforce_aggregated_pubkeys keys bits padding) = Panics).
Proof.
  intros E2 keys bits padding. split; [split; [apply signers_total|intros [l H]; exact (signers_length _ _ _ H)]|apply aggregated_panics].
Qed.
Theorem C35_all_keys : forall (E2 : grp) (keys : list E2) out, holds (enforce_aggregated_all_pubkeys keys) out <-> out = sum keys.
Proof. intros E2 keys out. cbn. rewrite <- sum_gsum. unfold gsum. split; congruence. Qed.

(** ** C36.  Over any groups and any map [e], then over every pairing in comparison with the native
    [batch_verify_hashes]. *)
Theorem C36_verify : forall (E1 E2 GT : grp) (e : E1 -> E2 -> GT) gen2 debug keys bits H sig maximum padding,
  gen2 <> gz -> Z.of_nat (length bits) < p ->
  holds (GadgetModel.verify e gen2 debug keys bits H sig maximum padding) tt <->
  bits <> [] /\ positions false bits <= fqv maximum < (p - 1) / 2 /\
  exists l, signers keys bits l /\ ~ In padding l /\ sum l <> gz /\ ga (e sig (gn gen2)) (e H (sum l)) = gz.
Proof. intros. apply verify_holds; assumption. Qed.
Theorem C36_batch_verify : forall (E1 E2 GT : grp) (e : E1 -> E2 -> GT) gen2 keys hashes sig, gen2 <> gz ->
  holds (GadgetModel.batch_verify e gen2 keys hashes sig) tt <->
  ~ In gz keys /\ ga (e sig (gn gen2)) (sum (map (fun '(P, Q) => e P Q) (combine hashes keys))) = gz.
Proof. intros. apply batch_holds; assumption. Qed.
Theorem C36_verify_native : forall (pr : pairing) debug keys bits (H sig : G1 pr) maximum padding l,
  Z.of_nat (length bits) < p -> bits <> [] -> fqv maximum < (p - 1) / 2 ->
  signers keys bits l -> ~ In padding l -> sum l <> gz ->
  holds (GadgetModel.verify e gen2 debug keys bits H sig maximum padding) tt <->
  positions false bits <= fqv maximum /\ BlsModel.outcome (BlsModel.batch_verify_hashes sig [sum l] [H]) = Ok tt.
Proof. exact verify_native. Qed.
Theorem C36_batch_native : forall (pr : pairing) keys hashes (sig : G1 pr), length keys = length hashes ->
  holds (GadgetModel.batch_verify e gen2 keys hashes sig) tt <->
  ~ In gz keys /\ BlsModel.outcome (BlsModel.batch_verify_hashes sig keys hashes) = Ok tt.
Proof. exact batch_native. Qed.
Theorem C36_honest : forall (E1 E2 GT : grp) (e : E1 -> E2 -> GT) gen2 debug keys bits H sig maximum padding,
  gen2 <> gz -> Z.of_nat (length bits) < p -> positions false bits < 256 ->
  holds (GadgetModel.verify e gen2 debug keys bits H sig maximum padding) tt ->
  prover (GadgetModel.verify e gen2 debug keys bits H sig maximum padding) = Val (tt, true).
Proof. intros E1 E2 GT. exact verify_honest. Qed.
(** Unlike the native check, the gadget pairs only as many hashes and keys as both lists have and
    cannot be satisfied when the keys sum to zero. *)
Theorem C36_uneven_refuted : exists (pr : pairing) keys hashes (sig : G1 pr), length keys <> length hashes /\
  holds (GadgetModel.batch_verify e gen2 keys hashes sig) tt /\
  BlsModel.outcome (BlsModel.batch_verify_hashes sig keys hashes) = Err UnevenNumKeysMessages.
Proof. exact uneven_accepted. Qed.
Theorem C36_zero_key_refuted : exists (pr : pairing) keys hashes (sig : G1 pr),
  BlsModel.outcome (BlsModel.batch_verify_hashes sig keys hashes) = Ok tt /\
  ~ holds (GadgetModel.batch_verify e gen2 keys hashes sig) tt.
Proof. exact zero_key_rejected. Qed.

Print Assumptions C31_is_eq_zero.
Print Assumptions C31_is_eq_zero_honest.
Print Assumptions C32_normalize.
Print Assumptions C32_midpoint_refuted.
Print Assumptions C32_midpoint_only.
Print Assumptions C32_constants.
Print Assumptions C32_normalize_honest.
Print Assumptions C33_g1_sign.
Print Assumptions C33_g2_sign.
Print Assumptions C33_g2_encoding.
Print Assumptions C33_any_y.
Print Assumptions C33_honest.
Print Assumptions C33_g2_midpoint_refuted.
Print Assumptions C34_threshold.
Print Assumptions C34_honest.
Print Assumptions C34_overflow.
Print Assumptions C35_aggregate.
Print Assumptions C35_honest.
Print Assumptions C35_lengths.
Print Assumptions C35_all_keys.
Print Assumptions C36_verify.
Print Assumptions C36_batch_verify.
Print Assumptions C36_verify_native.
Print Assumptions C36_batch_native.
Print Assumptions C36_honest.
Print Assumptions C36_uneven_refuted.
Print Assumptions C36_zero_key_refuted.
