(** C87: cases that meet the premises. *)
From Verif Require Import Base Constants Group Field Curve BlsModel EncodingModel PointModel HashCurveSpec HashCurveProofs CodecModel CodecSpec CurveGroups OrderSpec EncodingModel TwistSpec RealSpec RealModel RealExamples StringsSpec PropStrings.

Example ex_C87_counted : counted (fun x => x = 3 \/ x = 5) 2.
Proof. exists [3; 5]. split; [repeat constructor; cbn; lia|]. split; [intros a; cbn; lia|reflexivity]. Qed.
(** The square roots exist, and the counts are counts of something: a string read as the generator, and two read as infinity. *)
Example ex_C87_signatures : counted (fun l => (length l = 48%nat /\ is_bytes l = true) /\ exists P, signature_deserialize fq_sqrt g1_test l = Ok P) (r - 1 + p).
Proof. exact (C87_signatures fq_sqrt fq_sqrt_ok). Qed.
Example ex_C87_generator : exists l, (length l = 48%nat /\ is_bytes l = true) /\ signature_deserialize fq_sqrt g1_test l = Ok (g1_times 1 g1_generator).
Proof. destruct (C87_one_string_per_signature fq_sqrt fq_sqrt_ok 1) as (l & K & _); [split; [lia|reflexivity]|]. exists l. exact K. Qed.
Example ex_C87_infinity : wire_g1 (number (repeat 0 47 ++ [64])) None /\ wire_g1 (number (1 :: repeat 0 46 ++ [64])) None.
Proof. split; [exists 0|exists 1]; (split; [split; [lia|reflexivity]|vm_compute; reflexivity]). Qed.
Example ex_C87_keys : counted (fun l => (length l = 96%nat /\ is_bytes l = true) /\ exists P, public_key_deserialize fq2_sqrt g2_test l = Ok P) (r - 1 + p * p).
Proof. exact (C87_public_keys fq2_sqrt fq2_sqrt_ok). Qed.
Example ex_C87_key : exists l, (length l = 96%nat /\ is_bytes l = true) /\ public_key_deserialize fq2_sqrt g2_test l = Ok (g2_times 5 g2_generator).
Proof. destruct (C87_one_string_per_key fq2_sqrt fq2_sqrt_ok 5) as (l & K & _); [split; [lia|reflexivity]|]. exists l. exact K. Qed.
(** There are more than 2^123 strings of infinity for each other accepted signature, and more than 2^500 for each other accepted key. *)
Example ex_C87_ratio : (2 ^ 123 * (r - 1) <? p) && (2 ^ 500 * (r - 1) <? p * p) = true.
Proof. vm_compute. reflexivity. Qed.
(** The key 7 and the neutral key on a message that can be hashed. *)
Example ex_C87_accepted : exists m x,
  counted (fun sig => (length sig = 48%nat /\ is_bytes sig = true) /\ c_verify g1_curve e70 e70_bilinear true ped70 fq_sqrt fq2_sqrt (pk_of 7) sig m x true true = Some true) 1 /\
  counted (fun sig => (length sig = 48%nat /\ is_bytes sig = true) /\ c_verify g1_curve e70 e70_bilinear true ped70 fq_sqrt fq2_sqrt (pk_of 0) sig m x true true = Some true) p.
Proof.
  destruct hashed70 as (m & x & H). exists m, x. split.
  - apply (C87_one_accepted g1_curve e70 e70_bilinear true ped70 fq_sqrt fq2_sqrt ped70_bytes fq_sqrt_ok fq2_sqrt_ok _ m x true true _ 7 (pk_bytes 7)
      (small 7 ltac:(lia)) (pk_reads 7 ltac:(lia)) H). discriminate.
  - exact (C87_neutral_accepted g1_curve e70 e70_bilinear true ped70 fq_sqrt fq2_sqrt ped70_bytes fq_sqrt_ok fq2_sqrt_ok _ m x true true _ 0 (pk_bytes 0)
      (small 0 ltac:(lia)) (pk_reads 0 ltac:(lia)) H eq_refl).
Qed.
