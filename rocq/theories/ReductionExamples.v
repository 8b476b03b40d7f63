(** C81 on the keys and hashes of C70's examples: the honest key is 9, the other key is 7 with its proof of possession on the message [1], and Y is the hash of
    the signed message.  That the hash of the proof's message is a multiple of Y is C81_factors. *)
From Verif Require Import Base Constants Group Field Curve BlsModel PointModel CacheModel CacheSpec EncodingModel HashCurveModel HashCurveSpec HashCurveProofs CodecModel CodecSpec CodecProofs
  FfiModel CurveGroups CurveOrder TwistOrder OrderSpec TwistSpec TwistProofs PropTwist RealSpec RealModel RealProofs PropReal CurvesExamples RealExamples RealBatchSpec RealSessionModel RealSessionSpec RealSessionProofs RealSessionExamples
  RogueSpec RogueProofs RogueExamples ReductionSpec ReductionProofs PropReduction.

Notation hashed81 := (hashed true ped70 fq_sqrt).
Notation verify_pop81 := (c_verify_pop g1_curve e70 e70_bilinear true fq_sqrt fq2_sqrt).
Definition owner7 (k : Z) : owner := mk_owner (pk_of 7) (point 7) (signature_serialize (g1_times 7 (g1_to pop_hash))) (g1_times 7 (g1_to pop_hash)) [1] k.
Lemma times_1 H : in_g1 H -> g1_times 1 H = H.
Proof. intros I. rewrite <- (to1_of1 H I), <- (to1_smul 1 _ ltac:(lia)), smul_1. reflexivity. Qed.
Lemma pop_in : in_g1 (g1_to pop_hash) /\ g1_to pop_hash <> None.
Proof. exact (hashed_in true ped70 fq_sqrt ped70_bytes fq_sqrt_ok _ _ _ _ _ _ pop_hashed). Qed.
Lemma pop_accepted : verify_pop81 (pk_of 7) (signature_serialize (g1_times 7 (g1_to pop_hash))) [1] = Some true.
Proof.
  assert (S : c_sign_pop g1_curve e70 e70_bilinear true fq_sqrt (key_of 7) [1] = Some (signature_serialize (g1_times 7 (g1_to pop_hash)))).
  { apply (C70_sign_pop _ _ _ _ _ _ ped70_bytes fq_sqrt_ok); [reflexivity|]. rewrite key_number. exists (g1_to pop_hash). split; [cbn [key_of repeat length]; lia|]. split; [reflexivity|]. split; [exact pop_hashed|reflexivity]. }
  pose proof (C70_round_trip_pop _ _ _ _ _ _ _ ped70_bytes fq_sqrt_ok fq2_sqrt_ok (key_of 7) _ _ [1] [] [] eq_refl eq_refl eq_refl (public70 7 ltac:(lia)) S) as V.
  apply (drop_nil (fun a b => verify_pop81 a b [1] = Some true) (pk_of 7) (signature_serialize (g1_times 7 (g1_to pop_hash)))) in V. exact V.
Qed.
Lemma owner7_proved Y k : 0 < k < r -> g1_to pop_hash = g1_times k Y -> proved hashed81 verify_pop81 Y (owner7 k).
Proof.
  intros K E. pose proof (in_times 7 _ ltac:(lia) (proj1 pop_in)) as IS. destruct (sig_bytes_ser fq_sqrt fq_sqrt_ok _ IS) as (BS & KS).
  unfold proved, owner7. cbn [o_key o_point o_pop o_proof o_msg o_factor]. split; [apply pk_bytes|]. split; [exact BS|]. split; [apply pk_key_exact; lia|]. split; [exact KS|]. split; [exact K|].
  split; [rewrite <- E; exact pop_hashed|exact pop_accepted].
Qed.
Lemma two_points A B o : o_point o = B -> B <> A -> NoDup (A :: map o_point [o]).
Proof. intros E N. constructor; [intros [D|[]]; rewrite E in D; exact (N D)|]. constructor; [intros []|constructor]. Qed.
Lemma owner7_point k : o_point (owner7 k) = point 7.
Proof. unfold owner7. cbn [o_point]. reflexivity. Qed.
Lemma sum_9_7 : point 16 = fold_right g2_add None [point 9; point 7].
Proof. cbn [fold_right]. assert (Z : g2_add (point 7) None = point 7) by exact (point_add 7 0 ltac:(lia) ltac:(lia)). rewrite Z. symmetry. exact (point_add 9 7 ltac:(lia) ltac:(lia)). Qed.
Lemma served81 k : snd (serve (after before74) (Aggregate one other (Given true (pk_of 9) :: map (fun '(b, o) => Given b (o_key o)) (combine [false] [owner7 k])))) = Some (pk_of 16).
Proof.
  pose proof orders as (O1 & O2). apply (serve_owed fq2_sqrt fst_number fq2_sqrt_ok before74 _ _ before74_proper).
  - split; [exact O1|]. split; [exact O2|]. constructor; [apply pk_bytes|]. constructor; [apply pk_bytes|constructor].
  - exists (point 16). split; [|reflexivity]. exists [point 9; point 7], [point 9; point 7].
    split; [constructor; [apply pk_key_exact; lia|]; constructor; [apply pk_key_exact; lia|constructor]|].
    split; [constructor; [intros [D|[]]; revert D; apply points_differ; lia|]; constructor; [intros []|constructor]|]. split; [reflexivity|exact sum_9_7].
Qed.
Example ex_C81_aggregate : exists m x k, verify70 (pk_of 16) (sig_of 16) m x true true = Some true /\ 0 < k < r /\
  snd (serve (after before74) (Aggregate one other (Given true (pk_of 9) :: map (fun '(b, o) => Given b (o_key o)) (combine [false] [owner7 k])))) = Some (pk_of 16) /\
  answers (point 9) (g1_to H6) (extracted 1 (g1_times 16 (g1_to H6)) [owner7 k]).
Proof.
  destruct hashed70 as (m & x & HM). pose proof (hashed_in true ped70 fq_sqrt ped70_bytes fq_sqrt_ok _ _ _ _ _ _ HM) as (IY & NY).
  destruct (C81_factors _ _ IY NY (proj1 pop_in) (proj2 pop_in)) as (k & K & E & _). exists m, x, k. pose proof orders as (O1 & O2).
  pose proof (accepts70_exact m x 16 ltac:(lia) HM) as V. split; [exact V|]. split; [exact K|].
  assert (P : Forall (proved hashed81 verify_pop81 (g1_to H6)) [owner7 k]) by (constructor; [exact (owner7_proved _ k K E)|constructor]).
  pose proof (served81 k) as S.
  split; [exact S|].
  apply (C81_aggregate_served g1_curve e70 e70_bilinear true ped70 fq_sqrt fq2_sqrt ped70_bytes fq_sqrt_ok fq2_sqrt_ok fst_number before74 one other true [false] (pk_of 9) (pk_of 16) (sig_of 16) m x true true).
  - exact before74_proper.
  - exact O1.
  - exact O2.
  - apply pk_bytes.
  - exact (proj1 (sig_bytes_ser fq_sqrt fq_sqrt_ok _ (in_times 16 _ ltac:(lia) IY))).
  - reflexivity.
  - apply pk_key_exact; lia.
  - exact (two_points _ _ _ (owner7_point k) (points_differ 7 9 ltac:(lia) ltac:(lia) ltac:(lia))).
  - exact S.
  - exact (proj2 (sig_bytes_ser fq_sqrt fq_sqrt_ok _ (in_times 16 _ ltac:(lia) IY))).
  - exact IY.
  - split; [lia|reflexivity].
  - exact P.
  - rewrite (times_1 _ IY). exact HM.
  - exact V.
Qed.
Example ex_C81_forgery : answers (point 7) (g1_to H6) (divided 1 (g1_times 7 (g1_to H6))).
Proof.
  destruct hashed70 as (m & x & HM). pose proof (hashed_in true ped70 fq_sqrt ped70_bytes fq_sqrt_ok _ _ _ _ _ _ HM) as (IY & NY).
  apply (C81_forgery g1_curve e70 e70_bilinear true ped70 fq_sqrt fq2_sqrt ped70_bytes fq_sqrt_ok fq2_sqrt_ok (pk_of 7) (sig_of 7) m x true true).
  - apply pk_bytes.
  - exact (proj1 (sig_bytes_ser fq_sqrt fq_sqrt_ok _ (in_times 7 _ ltac:(lia) IY))).
  - apply pk_key_exact; lia.
  - exact (proj2 (sig_bytes_ser fq_sqrt fq_sqrt_ok _ (in_times 7 _ ltac:(lia) IY))).
  - exact IY.
  - split; [lia|reflexivity].
  - rewrite (times_1 _ IY). exact HM.
  - exact (accepts70_exact m x 7 ltac:(lia) HM).
Qed.
(** Signing with the private key 7 gives what is computed from 7 times the generator. *)
Example ex_C81_simulated : exists m x k, 0 < k < r /\
  c_sign g1_curve e70 e70_bilinear true ped70 fq_sqrt (key_of 7) m x true true = Some (signature_serialize (g1_times k (g1_times 7 g1_generator))).
Proof.
  destruct hashed70 as (m & x & HM). pose proof (hashed_in true ped70 fq_sqrt ped70_bytes fq_sqrt_ok _ _ _ _ _ _ HM) as (IY & NY).
  destruct (C81_factors g1_generator _ g1_gen_in ltac:(intros D; discriminate D) IY NY) as (k & K & E & _). exists m, x, k. split; [exact K|]. rewrite E in HM.
  pose proof (C81_signing_simulated g1_curve e70 e70_bilinear true ped70 fq_sqrt ped70_bytes fq_sqrt_ok (key_of 7) m x true true k) as S. rewrite key_number in S.
  apply S; [apply RealExamples.key_bytes; lia|cbn [key_of repeat length]; lia|reflexivity|lia|exact HM].
Qed.
