(** C80: instances.  A committee of three keys with Z = 2, two of which sign, and a point of the curve of the hashes with Z = 2. *)
From Verif Require Import Base Constants Group Field Curve EncodingModel PointModel HashCurveModel Circuit GadgetModel CurveGroups CurveOrder CurveCount TwistOrder SecretProofs
  CompleteModel CompleteSpec CompleteProofs CompleteCurves PropComplete.

Definition q2_2 : fq2 := q2add q2_1 q2_1.
Definition key2 : fq2 * fq2 * fq2 := scale fq2 q2mul q2_2 (canonical fq2 q2_0 q2_1 g2_generator).
Lemma key2_stands' : stands2 key2 g2_generator.
Proof.
  apply (rep_scale fq2 q2_0 q2_1 q2add q2mul q2sub q2opp q2div q2inv fq2_field); [exact q2_two|].
  exact (rep_canonical fq2 q2_0 q2_1 q2add q2mul q2sub q2opp q2div q2inv fq2_field g2_generator).
Qed.
Lemma of_stands q P : on_twist P = true -> stands2 q P -> stands2 q (g2_to (g2_of P)). Proof. intros H R. rewrite (g2_to_of _ H). exact R. Qed.
Lemma key2_stands : stands2 key2 (g2_to g2_gen). Proof. exact (of_stands key2 g2_generator g2_generator_on key2_stands'). Qed.
Lemma two_of_three (G : g2_curve) key : G <> gz -> stands2 key (g2_to G) ->
  exists q, holds (g2_p_aggregate_loop [(key, true); (key, false); (key, true)] (p_zero fq2 q2_0 q2_1) (p_zero fq2 q2_0 q2_1)) q /\ stands2 q (g2_to (smul 2 G)).
Proof.
  intros NZ KS.
  assert (Z : stands2 (p_zero fq2 q2_0 q2_1) (g2_to (gz : g2_curve))) by (rewrite g2_to_0; exact rep2_zero).
  assert (F : Forall2 (fun '(q, bit) '(K, bit') => bit = bit' /\ stands2 q (g2_to K)) [(key, true); (key, false); (key, true)] [(G, true); (G, false); (G, true)])
    by (repeat (constructor; [split; [reflexivity|exact KS]|]); constructor).
  destruct (C80_aggregate _ _ _ _ gz gz F Z Z) as (q & R & ok & _ & _ & RQ & H & H').
  assert (A : holds (aggregate_loop [(G, true); (G, false); (G, true)] (gz : g2_curve) gz) (smul 2 G)).
  { assert (N : geqb G (gz : g2_curve) = false) by (apply not_true_is_false; intros E; apply geqb_spec in E; exact (NZ E)).
    cbn [aggregate_loop cbind enforce holds]. rewrite N. cbn [andb negb]. split; [reflexivity|]. split; [reflexivity|]. split; [reflexivity|].
    rewrite smul_2, ga_0_l, ga_0_r. reflexivity. }
  clear F. pose proof (proj1 (H' _) A) as [OK E]. exists q. split; [exact (proj2 (H q) (conj OK eq_refl))|]. rewrite E. exact RQ.
Qed.
Example ex_C80_aggregate : exists q, holds (g2_p_aggregate_loop [(key2, true); (key2, false); (key2, true)] (p_zero fq2 q2_0 q2_1) (p_zero fq2 q2_0 q2_1)) q /\
  stands2 q (g2_to (smul 2 g2_gen)).
Proof. exact (two_of_three g2_gen key2 g2_gen_nz key2_stands). Qed.
Lemma one_key q P : on_twist P = true -> P <> None -> stands2 q P -> exists c, holds (g2_p_to_affine (g2_p_aggregate_all [q])) c.
Proof.
  intros H N R. destruct P as [[x y]|]; [|destruct (N eq_refl)]. exists (x, y). apply (C80_all_keys [q] [Some (x, y)] (x, y)).
  - constructor; [exact R|constructor].
  - constructor; [exact H|constructor].
  - reflexivity.
Qed.
Example ex_C80_all_keys : exists c, holds (g2_p_to_affine (g2_p_aggregate_all [key2])) c.
Proof. exact (one_key key2 g2_generator g2_generator_on ltac:(intros K; discriminate K) key2_stands'). Qed.
Lemma gen_cofactor : smul G1_COFACTOR (g1_of g1_generator) <> gz.
Proof. intros E. apply g1_gen_nz. exact (two_killers r G1_COFACTOR _ cof_apart gen_order E). Qed.
Definition q_2 : fq := qadd q1 q1.
Definition cand2 : fq * fq * fq := scale fq qmul q_2 (canonical fq q0 q1 g1_generator).
Lemma cand2_stands : stands1 cand2 g1_generator.
Proof.
  apply (rep_scale fq q0 q1 qadd qmul qsub qopp qdiv qinv fq_field); [exact q_two|].
  exact (rep_canonical fq q0 q1 qadd qmul qsub qopp qdiv qinv fq_field g1_generator).
Qed.
Example ex_C80_cofactor : stands1 (g1_p_scale_by_cofactor cand2) (g1_to (smul G1_COFACTOR (g1_of g1_generator))).
Proof. exact (C80_cofactor cand2 g1_generator g1_generator_on gen_cofactor cand2_stands). Qed.
Example ex_C80_multiple : stands1 (g1_p_mul_le [true; false; true] cand2) (g1_to (smul (bits_value [true; false; true]) (g1_of g1_generator))).
Proof. exact (C80_multiple [true; false; true] cand2 g1_generator g1_generator_on gen_cofactor ltac:(cbn; lia) cand2_stands). Qed.
Example ex_C80_summands : smul 5 g1_gen <> smul (2 ^ Z.of_nat 3) g1_gen.
Proof. exact (proj1 (proj2 (proj2 (C80_summands g1_gen 5 3 gen_cofactor ltac:(lia) ltac:(cbn; lia))))). Qed.
