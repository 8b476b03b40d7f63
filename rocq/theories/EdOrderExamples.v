(** C85: cases that meet the premises. *)
From Verif Require Import Base Constants Group Field Curve HashCurveSpec EncodingModel Edwards PedersenModel PedersenSpec PedersenProofs PedersenUse PropPedersen PedersenExamples HashCurveProofs
  EdOrderProofs PropEdOrder.

(** Parameters over 560 copies of a base that the sampler returns (ex_bases). *)
Definition ex_B : ed_grp := smul 8 ex_Q.
Lemma cleared_repeat (B : ed_grp) n : (exists Q, B = smul 8 Q) -> Forall (fun B => exists Q, B = smul 8 Q) (repeat B n).
Proof. intros H. induction n; cbn [repeat]; constructor; assumption. Qed.
Lemma digest_repeat (Q : ed_grp) m m' : is_bytes m = true -> is_bytes m' = true -> Z.of_nat (length m) <= 19530 -> Z.of_nat (length m') <= 19530 ->
  let gens := repeat (segment_generators WINDOW_SIZE (edp (smul 8 Q))) 560 in
  composite_crh gens m = composite_crh gens m' <->
  combination (coefficients m) (repeat (smul 8 Q) 560) = combination (coefficients m') (repeat (smul 8 Q) 560).
Proof.
  intros H H' L L' gens. apply C85_digest; try assumption; [apply cleared_repeat; exists Q; reflexivity|apply windows_repeat|apply repeat_length].
Qed.
Example ex_C85_digest : create_bases ex_key fq_sqrt 1 1 0 = Some [edp ex_B] /\
  let gens := repeat (segment_generators WINDOW_SIZE (edp ex_B)) 560 in
  composite_crh gens [1] = composite_crh gens [2; 0] <->
  combination (coefficients [1]) (repeat ex_B 560) = combination (coefficients [2; 0]) (repeat ex_B 560).
Proof. split; [exact ex_bases|]. apply (digest_repeat ex_Q [1] [2; 0]); [reflexivity|reflexivity|cbn; lia|cbn; lia]. Qed.
(** That base is not the neutral element. *)
Lemma small_order (P : ed_grp) : smul 8 P = gz -> P = gz \/ P = ed_two \/ yof P = q0 \/ qsub q1 (qmul (yof P) (yof P)) = qmul m5 (qmul e_v e_v).
Proof.
  intros H. change 8 with (2 * (2 * (2 * 1))) in H. rewrite !smul_double, smul_1 in H.
  apply two_cases in H. destruct H as [H|H]; [|right; right; right; apply order_eight, half_of_two; exact H].
  apply two_cases in H. destruct H as [H|H]; [|right; right; left; apply half_of_two; exact H].
  apply two_cases in H. destruct H as [H|H]; [left; exact H|right; left; exact H].
Qed.
Lemma not_small (P : ed_grp) :
  negb (qeqb (xof P) q0) && negb (qeqb (yof P) q0) && negb (qeqb (qsub q1 (qmul (yof P) (yof P))) (qmul m5 (qmul e_v e_v))) = true -> smul 8 P <> gz.
Proof.
  rewrite !andb_true_iff. intros ((A & B) & C) H. apply neq_of in A, B, C. apply small_order in H.
  destruct H as [-> |[-> |[H|H]]]; [apply A; reflexivity|apply A; reflexivity|exact (B H)|exact (C H)].
Qed.
Lemma ex_Q_check : negb (qeqb ex_x q0) && negb (qeqb ex_y q0) && negb (qeqb (qsub q1 (qmul ex_y ex_y)) (qmul m5 (qmul e_v e_v))) = true.
Proof. vm_cast_no_check (eq_refl true). Qed.
Example ex_B_nonzero : ex_B <> gz. Proof. exact (not_small ex_Q ex_Q_check). Qed.
(** A collision: with equal bases, two messages of 70 bytes that exchange the scalars of the first two windows. *)
Definition ex_m1 : bytes := 1 :: repeat 0 69.
Definition ex_m2 : bytes := repeat 0 34 ++ [128] ++ repeat 0 35.
Lemma repeated_combination (B : ed_grp) ks : combination ks (repeat B (length ks)) = smul (fold_right Z.add 0 ks) B.
Proof. induction ks as [|k ks IH]; [reflexivity|]. cbn [length repeat combination fold_right]. rewrite IH, smul_add. reflexivity. Qed.
Lemma coefficients_length m : length (coefficients m) = 560%nat. Proof. unfold coefficients. rewrite map_length. apply seq_length. Qed.
Lemma equal_sums (B : ed_grp) m m' : (fold_right Z.add 0 (coefficients m) =? fold_right Z.add 0 (coefficients m')) = true ->
  combination (coefficients m) (repeat B 560) = combination (coefficients m') (repeat B 560).
Proof.
  intros H. apply Z.eqb_eq in H. rewrite <- (coefficients_length m) at 1. rewrite repeated_combination, H.
  rewrite <- (coefficients_length m') at 1. rewrite repeated_combination. reflexivity.
Qed.
Lemma ex_sums : (fold_right Z.add 0 (coefficients ex_m1) =? fold_right Z.add 0 (coefficients ex_m2)) = true. Proof. vm_cast_no_check (eq_refl true). Qed.
Lemma collision_repeat (Q : ed_grp) m m' : (fold_right Z.add 0 (coefficients m) =? fold_right Z.add 0 (coefficients m')) = true -> m <> m' ->
  is_bytes m = true -> is_bytes m' = true -> Z.of_nat (length m) <= 19530 -> Z.of_nat (length m') <= 19530 ->
  let gens := repeat (segment_generators WINDOW_SIZE (edp (smul 8 Q))) 560 in
  exists out, composite_crh gens m = Ok out /\ composite_crh gens m' = Ok out /\
  relation (map (fun i => coefficient m i - coefficient m' i) (seq 0 560)) (repeat (smul 8 Q) 560).
Proof.
  intros S N H H' L L' gens. assert (E := proj2 (digest_repeat Q m m' H H' L L') (equal_sums _ m m' S)). fold gens in E.
  destruct (proj2 (C61_limit (repeat (smul 8 Q) 560) gens m (windows_repeat _ _) (repeat_length _ _)) L) as (out & O). exists out.
  rewrite O in E. split; [exact O|]. split; [symmetry; exact E|].
  apply (C85_collision _ gens m m' out); [apply cleared_repeat; exists Q; reflexivity|apply windows_repeat|apply repeat_length|assumption..|symmetry; exact E].
Qed.
Example ex_C85_collision : let gens := repeat (segment_generators WINDOW_SIZE (edp ex_B)) 560 in
  exists out, composite_crh gens ex_m1 = Ok out /\ composite_crh gens ex_m2 = Ok out /\
  relation (map (fun i => coefficient ex_m1 i - coefficient ex_m2 i) (seq 0 560)) (repeat ex_B 560).
Proof. apply (collision_repeat ex_Q ex_m1 ex_m2); [exact ex_sums|unfold ex_m1, ex_m2; cbn; congruence|reflexivity|reflexivity|cbn; lia|cbn; lia]. Qed.
(** The point of order eight lies on the curve, shares its x coordinate with another point, and is no multiple of eight. *)
Lemma eight_not_cleared_gen (E : ed_grp) : smul 8 E = gz -> smul 4 E <> gz -> ~ exists Q, E = smul 8 Q.
Proof.
  intros H8 H4 [Q EQ]. destruct C85_cofactor as (n & O & _ & K). apply H4. specialize (K Q). rewrite <- EQ in K.
  rewrite (Z.div_mod n 2) in K by lia. rewrite Zmod_odd, O in K.
  assert (A : smul (4 * (2 * (n / 2) + 1)) E = gz) by (rewrite smul_mul, K; apply smul_gz).
  replace (4 * (2 * (n / 2) + 1)) with (n / 2 * 8 + 4) in A by ring. rewrite smul_add, smul_mul, H8, smul_gz, ga_0_l in A. exact A.
Qed.
Example ex_not_cleared : exists E : ed_grp, smul 8 E = gz /\ ~ exists Q, E = smul 8 Q.
Proof. destruct C85_order_eight as (E & H8 & H4). exists E. split; [exact H8|exact (eight_not_cleared_gen E H8 H4)]. Qed.
(** Premises of C85_same_x. *)
Example ex_C85_same_x : fst (edp ex_B) = fst (edp (smul 8 ex_Q)) /\ ex_B = smul 8 ex_Q.
Proof. split; reflexivity. Qed.
