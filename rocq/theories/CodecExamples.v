(** Concrete cases meeting the hypotheses of C30. *)
From Verif Require Import Base Constants Field Curve BlsModel EncodingModel PointModel HashCurveSpec HashCurveProofs CodecModel CodecSpec PropCodec.

Example zero_one_on_curve : g1_equation (q0, q1).
Proof. unfold g1_equation. cbn [fst snd]. apply fq_ext. vm_compute. reflexivity. Qed.
(** The model's own test of order r is not needed to exercise the codec; any test will do. *)
Example sig_zero_one : signature_deserialize fq_sqrt (fun _ => true) (signature_serialize (Some (q0, q1)) ++ [7]) = Ok (Some (q0, q1)).
Proof.
  apply C30_signature_roundtrip; [exact fq_sqrt_ok|reflexivity|]. intros Q H. injection H as <-. split; [exact zero_one_on_curve|reflexivity].
Qed.
Example sig_zero_one_bytes : signature_serialize (Some (q0, q1)) = repeat 0 48 /\ signature_serialize (Some (q0, qopp q1)) = repeat 0 47 ++ [128].
Proof. split; vm_compute; reflexivity. Qed.
Example sig_zero_one_canonical : firstn 48 (repeat 0 48) = signature_serialize (Some (q0, q1)).
Proof.
  apply (C30_signature_canonical fq_sqrt (fun _ => true) (repeat 0 48) (q0, q1)); [exact fq_sqrt_ok|reflexivity| |].
  - rewrite <- (proj1 sig_zero_one_bytes), <- (app_nil_r (signature_serialize _)).
    apply C30_signature_roundtrip; [exact fq_sqrt_ok|reflexivity|]. intros Q H. injection H as <-. split; [exact zero_one_on_curve|reflexivity].
  - cbn [snd]. intros H. apply (f_equal fqv) in H. vm_compute in H. discriminate.
Qed.
Definition g2_gen : fq2 * fq2 := match g2_generator with Some Q => Q | None => (q2_0, q2_0) end.
Example g2_gen_on : g2_equation g2_gen.
Proof. apply q2eqb_spec. vm_compute. reflexivity. Qed.
Example pk_gen : public_key_deserialize fq2_sqrt (fun _ => true) (public_key_serialize (Some g2_gen) ++ []) = Ok (Some g2_gen).
Proof.
  apply C30_public_key_roundtrip; [exact fq2_sqrt_ok|reflexivity|]. intros Q H. injection H as <-. split; [exact g2_gen_on|reflexivity].
Qed.
Example sk_largest : private_key_deserialize (private_key_serialize (r - 1) ++ [1]) = Ok (r - 1).
Proof. apply C30_private_key_roundtrip; [reflexivity|]. split; [vm_compute; discriminate|lia]. Qed.
(** r itself, a short string and a string with both flags are rejected *)
Example rejected : private_key_deserialize (le_bytes 32 r) = Err SerializationError /\
  signature_deserialize fq_sqrt (fun _ => true) (repeat 0 47) = Err SerializationError /\
  signature_deserialize fq_sqrt (fun _ => true) (repeat 0 47 ++ [192]) = Err SerializationError.
Proof. repeat split; vm_compute; reflexivity. Qed.
