(** C88: cases that meet the premises. *)
From Verif Require Import Base Constants Group Field Curve BlsModel PointModel CacheModel CacheSpec EncodingModel HashCurveSpec HashCurveProofs CodecModel CodecSpec FfiModel
  CurveGroups OrderSpec TwistSpec TwistProofs RealSpec RealModel RealExamples RealBatchSpec RealSessionModel RealSessionSpec RealSessionProofs RealSessionExamples PropNeutral.

Lemma neutral_key : key_bytes (pk_of 0) None.
Proof.
  pose proof (pk_reads 0 ltac:(lia)) as K. apply (key_in_g2 fq2_sqrt _ _ fq2_sqrt_ok (RealExamples.pk_bytes 0)) in K. exact K.
Qed.
Definition neutral_sig : bytes := 5 :: repeat 0 46 ++ [64].
Lemma neutral_sig_wire : wire_g1 (number (firstn 48 neutral_sig)) None.
Proof. exists 5. split; [split; [lia|reflexivity]|vm_compute; reflexivity]. Qed.
(** Neither the library's encoding nor any key is needed: a hand-made string is a proof of possession and a signature. *)
Example ex_C88_possession : c_verify_pop g1_curve e70 e70_bilinear true fq_sqrt fq2_sqrt (pk_of 0) neutral_sig [1] = Some true.
Proof.
  apply (C88_possession g1_curve e70 e70_bilinear true ped70 fq_sqrt fq2_sqrt ped70_bytes fq_sqrt_ok fq2_sqrt_ok (pk_of 0) (RealExamples.pk_bytes 0) neutral_key
    neutral_sig [1] (g1_to pop_hash) eq_refl pop_hashed). split; [cbn; lia|exact neutral_sig_wire].
Qed.
Example ex_C88_signature : exists m x, c_verify g1_curve e70 e70_bilinear true ped70 fq_sqrt fq2_sqrt (pk_of 0) neutral_sig m x true true = Some true.
Proof.
  destruct hashed70 as (m & x & H). exists m, x.
  apply (C88_signature g1_curve e70 e70_bilinear true ped70 fq_sqrt fq2_sqrt ped70_bytes fq_sqrt_ok fq2_sqrt_ok (pk_of 0) (RealExamples.pk_bytes 0) neutral_key
    neutral_sig m x true true _ eq_refl H). split; [cbn; lia|exact neutral_sig_wire].
Qed.
Lemma orders74 : fair one /\ fair other. Proof. exact orders. Qed.
Example ex_C88_aggregate :
  snd (serve (after (@nil (request fq2_sqrt fst_number))) (Aggregate one other [Given true (pk_of 7); Given false (pk_of 0); Given true (pk_of 9)])) =
  snd (serve (after (@nil (request fq2_sqrt fst_number))) (Aggregate one other [Given true (pk_of 7); Given true (pk_of 9)])).
Proof.
  apply (C88_aggregate fq2_sqrt fst_number fq2_sqrt_ok [] one other (Given false (pk_of 0)) [Given true (pk_of 7)] [Given true (pk_of 9)]).
  - constructor.
  - split; [apply orders74|]. split; [apply orders74|]. repeat (apply Forall_cons; [apply RealExamples.pk_bytes|]); apply Forall_nil.
  - exact neutral_key.
Qed.
Example ex_C88_subtract :
  snd (serve (after (@nil (request fq2_sqrt fst_number))) (Subtract one other (Given false (pk_of 9)) [Given false (pk_of 0)])) =
  snd (serve (after (@nil (request fq2_sqrt fst_number))) (Subtract one other (Given false (pk_of 9)) [])).
Proof.
  apply (C88_subtract fq2_sqrt fst_number fq2_sqrt_ok [] one other (Given false (pk_of 9)) (Given false (pk_of 0)) [] []).
  - constructor.
  - split; [apply orders74|]. split; [apply orders74|]. split; [apply RealExamples.pk_bytes|]. repeat (apply Forall_cons; [apply RealExamples.pk_bytes|]); apply Forall_nil.
  - exact neutral_key.
Qed.
