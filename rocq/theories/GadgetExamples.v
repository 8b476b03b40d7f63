(** Concrete cases meeting the hypotheses of C31-C36. *)
From Verif Require Import Base Constants Group Instances Field Curve BlsModel EncodingModel EncodingSpec CodecSpec Circuit CircuitFacts GadgetModel GadgetSpec CubeFacts GadgetProofs GadgetNative PropGadget CodecExamples.

Example zero_is_zero : holds (is_eq_zero (Var q0)) true /\ ~ holds (is_eq_zero (Var q0)) false /\ holds (is_eq_zero (Var q1)) false.
Proof.
  split; [apply C31_is_eq_zero; split; reflexivity|]. split.
  - intros H. apply C31_is_eq_zero in H. assert (false = true) by (apply H; reflexivity). discriminate.
  - apply C31_is_eq_zero. split; [discriminate|]. intros E. cbn [value] in E. exfalso. exact (q1_nz E).
Qed.
Example minus_one_large : holds (normalize (Var (qopp q1))) true /\ ~ holds (normalize (Var q1)) true.
Proof.
  split.
  - apply C32_normalize; [vm_compute; discriminate|]. split; [vm_compute; reflexivity|reflexivity].
  - intros H. apply C32_normalize in H; [|vm_compute; discriminate]. pose proof (proj1 H eq_refl) as L. vm_compute in L. discriminate.
Qed.
(** (0, 1) lies on the curve of G1, the generator on the curve of G2; neither has a midpoint coordinate. *)
Example g1_example : g1_equation (q0, q1) /\ holds (g1_y_to_bit q1) false /\ holds (g1_y_to_bit (qopp q1)) true.
Proof.
  split; [exact zero_one_on_curve|]. split.
  - apply (C33_g1_sign (q0, q1)); [exact zero_one_on_curve|]. split; [discriminate|]. unfold larger1. vm_compute. discriminate.
  - apply C33_any_y. left. split; [intros _; vm_compute; reflexivity|reflexivity].
Qed.
Example g2_example : g2_equation g2_gen /\ ~ midpoint (snd (snd g2_gen)).
Proof. split; [exact g2_gen_on|]. unfold midpoint. vm_compute. discriminate. Qed.
Example free_example : g2_equation (free_x, free_y) /\ midpoint (snd free_y).
Proof. split; [exact free_on|exact halfq_val]. Qed.

Definition three_of_four : list bool := [true; true; false; true].
Example threshold_met : holds (enforce_maximum_occurrences_in_bitmap true three_of_four (fq_of 1) false) tt /\
  prover (enforce_maximum_occurrences_in_bitmap true three_of_four (fq_of 1) false) = Val (tt, true) /\
  ~ holds (enforce_maximum_occurrences_in_bitmap true three_of_four (fq_of 0) false) tt.
Proof.
  assert (H : holds (enforce_maximum_occurrences_in_bitmap true three_of_four (fq_of 1) false) tt).
  { apply C34_threshold; [reflexivity|]. split; [discriminate|]. split; [vm_compute; discriminate|vm_compute; reflexivity]. }
  split; [exact H|]. split; [apply C34_honest; [reflexivity|vm_compute; reflexivity|exact H]|].
  intros X. apply C34_threshold in X; [|reflexivity]. destruct X as [_ [X _]]. vm_compute in X. contradiction.
Qed.
(** 256 absentees within the permitted maximum: provable in principle, not by the honest prover. *)
Example overflow_example : let bits := repeat false 256 in
  holds (enforce_maximum_occurrences_in_bitmap false bits (fq_of 300) false) tt /\
  prover (enforce_maximum_occurrences_in_bitmap false bits (fq_of 300) false) = Val (tt, false).
Proof.
  cbv zeta. split.
  - apply C34_threshold; [vm_compute; reflexivity|]. split; [discriminate|]. split; [vm_compute; discriminate|vm_compute; reflexivity].
  - apply (C34_overflow false); [vm_compute; reflexivity|vm_compute; discriminate].
Qed.
Example signers_example : signers [zr_gen 1; zr_gen 2; zr_gen 3; zr_gen 4] three_of_four [zr_gen 1; zr_gen 2; zr_gen 4].
Proof. repeat constructor. Qed.
Lemma zr_neq a b : zr_val a <> zr_val b -> a <> b. Proof. congruence. Qed.
Lemma sum_124 : zr_val (sum (G := zr_grp) [zr_gen 1; zr_gen 2; zr_gen 4]) = 7. Proof. vm_compute. reflexivity. Qed.
Lemma val_9 : zr_val (zr_gen 9) = 9. Proof. vm_compute. reflexivity. Qed.
Lemma val_0 : zr_val (gz : zr_grp) = 0. Proof. vm_compute. reflexivity. Qed.
Lemma no_9 : ~ In (zr_gen 9) [zr_gen 1; zr_gen 2; zr_gen 4].
Proof.
  intros [H|[H|[H|[]]]]; revert H; apply zr_neq; vm_compute; discriminate.
Qed.
(** Keys 1,2,3,4, hash 5: the aggregate of signers 1,2,4 signs 5 with 5 * 7. *)
Example verify_example :
  holds (GadgetModel.verify (e (p := zr_pairing)) gen2 true [zr_gen 1; zr_gen 2; zr_gen 3; zr_gen 4] three_of_four (zr_gen 5) (zr_gen 35) (fq_of 1) (zr_gen 9)) tt.
Proof.
  apply C36_verify; [exact (gen2_nz zr_pairing)|reflexivity|]. split; [discriminate|].
  split; [split; [vm_compute; discriminate|vm_compute; reflexivity]|].
  exists [zr_gen 1; zr_gen 2; zr_gen 4]. split; [exact signers_example|]. split; [exact no_9|]. split.
  - intros X. apply (f_equal zr_val) in X. assert (Y : 7 = 0) by (rewrite <- val_0, <- sum_124; exact X). discriminate Y.
  - apply zr_ext. vm_compute. reflexivity.
Qed.
Example verify_example_honest :
  prover (GadgetModel.verify (e (p := zr_pairing)) gen2 true [zr_gen 1; zr_gen 2; zr_gen 3; zr_gen 4] three_of_four (zr_gen 5) (zr_gen 35) (fq_of 1) (zr_gen 9)) = Val (tt, true).
Proof. apply C36_honest; [exact (gen2_nz zr_pairing)|reflexivity|vm_compute; reflexivity|exact verify_example]. Qed.
(** A signature by all four does not verify. *)
Example verify_reject :
  ~ holds (GadgetModel.verify (e (p := zr_pairing)) gen2 true [zr_gen 1; zr_gen 2; zr_gen 3; zr_gen 4] three_of_four (zr_gen 5) (zr_gen 50) (fq_of 1) (zr_gen 9)) tt.
Proof.
  intros H. apply C36_verify in H; [|exact (gen2_nz zr_pairing)|reflexivity]. destruct H as (_ & _ & l & Hl & _ & _ & H).
  rewrite (signers_fun _ _ _ _ Hl signers_example) in H. apply (f_equal zr_val) in H. revert H.
  match goal with |- zr_val ?a = ?b -> _ => assert (X : (zr_val a =? b) = false) by (vm_compute; reflexivity) end.
  intros H. rewrite H, Z.eqb_refl in X. discriminate X.
Qed.
