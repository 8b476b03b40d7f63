(** C84 on a batch with two signatures exchanged: the honest key is 9, the other key is 7 with the proof of possession of C81's example, and Y is the hash of the message. *)
From Coq Require Import Permutation.
From Verif Require Import Base Constants Group Field Curve BlsModel PointModel CacheModel CacheSpec EncodingModel HashCurveModel HashCurveSpec HashCurveProofs CodecModel CodecSpec CodecProofs
  FfiModel CurveGroups CurveOrder TwistOrder OrderSpec TwistSpec TwistProofs PropTwist RealSpec RealModel RealProofs PropReal CurvesExamples RealExamples RealBatchModel RealBatchSpec PropRealBatch RealBatchExamples RealSessionProofs RealSessionExamples
  RogueSpec RogueProofs RogueExamples ReductionSpec ReductionProofs PropReduction ReductionExamples ScreenSpec ScreenProofs PropScreen.

(** The first item's signature is that of key 7, the second's that of key 9; the third is as it should be and was given away by the honest owner. *)
Definition items84 (m x : bytes) : list item := [Item (pk_of 9) (sig_of 7) m x; Item (pk_of 7) (sig_of 9) m x; Item (pk_of 9) (sig_of 9) m x].
Lemma exchange k1 s1 k2 s2 k3 s3 m x : is_bytes k1 = true -> is_bytes k2 = true -> is_bytes k3 = true -> is_bytes s1 = true -> is_bytes s2 = true -> is_bytes s3 = true ->
  batch72 [Item k1 s1 m x; Item k2 s2 m x; Item k3 s3 m x] true true = Some true -> batch72 [Item k1 s2 m x; Item k2 s1 m x; Item k3 s3 m x] true true = Some true.
Proof.
  intros K1 K2 K3 S1 S2 S3. apply (C72_batch_unordered _ _ _ _ _ _ _ ped70_bytes fq_sqrt_ok fq2_sqrt_ok [Item k1 s1 m x; Item k2 s2 m x; Item k3 s3 m x] [s2; s1; s3]); cbn [map i_key i_sig forallb].
  - rewrite K1, K2, K3. reflexivity.
  - rewrite S1, S2, S3. reflexivity.
  - apply perm_swap.
Qed.
Lemma items84_accepted m x : hashed72 m x (g1_to H6) -> batch72 (items84 m x) true true = Some true.
Proof.
  intros H. refine (exchange (pk_of 9) (sig_of 9) (pk_of 7) (sig_of 7) (pk_of 9) (sig_of 9) m x (pk_bytes 9) (pk_bytes 7) (pk_bytes 9) (RealExamples.sig_bytes 9) (RealExamples.sig_bytes 7) (RealExamples.sig_bytes 9) _).
  apply (C72_batch_complete _ _ _ _ _ _ _ ped70_bytes fq_sqrt_ok fq2_sqrt_ok); [reflexivity|].
  constructor; [split; [apply pk_bytes|split; [apply RealExamples.sig_bytes|exact (accepts70_exact m x 9 ltac:(lia) H)]]|].
  constructor; [split; [apply pk_bytes|split; [apply RealExamples.sig_bytes|exact (accepts70_exact m x 7 ltac:(lia) H)]]|].
  constructor; [split; [apply pk_bytes|split; [apply RealExamples.sig_bytes|exact (accepts70_exact m x 9 ltac:(lia) H)]]|constructor].
Qed.
Lemma answers_point k : 0 <= k < r -> answers (point k) g1_generator (g1_times k g1_generator).
Proof. intros K. exists k. split; [exact K|]. split; reflexivity. Qed.
Example ex_C84 : exists m x k k', batch72 (items84 m x) true true = Some true /\ 0 < k < r /\ 0 < k' < r /\
  answers (point 9) (g1_to H6) (screened (g1_times 9 g1_generator) [g1_times 7 (g1_to H6); g1_times 9 (g1_to H6); g1_times 9 (g1_to H6)] [Unsigned 1; Proved (owner7 k) 1; Signed k']).
Proof.
  destruct hashed70 as (m & x & HM). pose proof (hashed_in true ped70 fq_sqrt ped70_bytes fq_sqrt_ok _ _ _ _ _ _ HM) as (IY & NY).
  destruct (C81_factors _ _ IY NY (proj1 pop_in) (proj2 pop_in)) as (k & K & E & _). destruct (C81_factors g1_generator _ g1_gen_in ltac:(intros D; discriminate D) IY NY) as (k' & K' & E' & _).
  exists m, x, k, k'. pose proof (items84_accepted m x HM) as V. split; [exact V|]. split; [exact K|]. split; [exact K'|].
  assert (S : forall j, 0 <= j < 256 -> RealBatchSpec.sig_bytes (sig_of j) (g1_times j (g1_to H6))) by (intros j J; exact (proj2 (sig_bytes_ser fq_sqrt fq_sqrt_ok _ (in_times j _ (proj1 J) IY)))).
  refine (C84_screening g1_curve e70 e70_bilinear true ped70 fq_sqrt fq2_sqrt ped70_bytes fq_sqrt_ok fq2_sqrt_ok (items84 m x) true true (point 9) (g1_to H6) _ _ _ _ _ IY (answers_point 9 _) _ _ _ V).
  - unfold items84. cbn [map i_key forallb]. rewrite !pk_bytes. reflexivity.
  - unfold items84. cbn [map i_sig forallb]. rewrite !RealExamples.sig_bytes. reflexivity.
  - split; [lia|reflexivity].
  - unfold items84. constructor; [|constructor; [|constructor; [|constructor]]]; cbn [plays i_key i_msg i_extra].
    + split; [apply pk_key_exact; lia|]. split; [lia|]. rewrite (times_1 _ IY). exact HM.
    + split; [rewrite owner7_point; apply pk_key_exact; lia|]. split; [exact (owner7_proved _ k K E)|]. split; [lia|]. rewrite (times_1 _ IY). exact HM.
    + split; [apply pk_key_exact; lia|]. split; [lia|]. rewrite <- E'. exact HM.
  - unfold items84. constructor; [apply S; lia|]. constructor; [apply S; lia|]. constructor; [apply S; lia|constructor].
  - reflexivity.
Qed.
