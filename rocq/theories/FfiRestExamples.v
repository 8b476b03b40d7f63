(** Concrete cases meeting the hypotheses of C60. *)
From Verif Require Import Base Constants Group Instances Field Curve BlsModel BlsSpec BlsProofs BlsExamples CacheModel CacheSpec CacheProofs CacheExamples
  EncodingModel HasherModel PointModel PointProofs HashCurveModel HashCurveSpec HashCurveProofs CodecModel CodecSpec CodecProofs CodecExamples
  FfiModel FfiSpec FfiProofs FfiDataProofs FfiExamples FfiRestProofs PropFfiRest.

(** Two signers of one message under the CIP22 flags; the aggregate passes for the sum of their keys and not for one of them. *)
Definition keys2 : list (G2 zr_pairing) := [smul 3 gen2; smul 4 gen2].
Definition sigs2 : list (G1 zr_pairing) := [sig_of (fsign 3 [1; 2] [3] true true); sig_of (fsign 4 [1; 2] [3] true true)].
Example ex_C60 :
  Forall2 (fun sk s => fsign sk [1; 2] [3] true true = Returns true (Some s)) [3; 4] sigs2 /\
  Forall2 (fun sk pk => ffi_private_key_to_public_key sk = Returns true (Some pk)) [3; 4] keys2 /\
  fver (total keys2) [1; 2] [3] (sig_of (ffi_aggregate_signatures sigs2)) true true = Returns true (Some true) /\
  fver (to_public 3) [1; 2] [3] (sig_of (ffi_aggregate_signatures sigs2)) true true = Returns true (Some false).
Proof.
  split; [constructor; [reflexivity|constructor; [reflexivity|constructor]]|].
  split; [constructor; [reflexivity|constructor; [reflexivity|constructor]]|]. split; vm_compute; reflexivity.
Qed.
Example ex_C60_private : ffi_deserialize private_key_deserialize (7 :: repeat 0 31) = Returns true (Some 7) /\
  ffi_deserialize private_key_deserialize (7 :: repeat 0 30) = Returns false None /\
  ffi_deserialize private_key_deserialize (repeat 255 32) = Returns false None /\
  ~ ((32 <= length (repeat 255 32))%nat /\ number (repeat 255 32) < r).
Proof. repeat split; try (vm_compute; reflexivity). intros [_ H]. vm_compute in H. discriminate H. Qed.
(** The generator of G2 as a key; both flag bits set as a refused string. *)
Example ex_C60_key : exists l u,
  ffi_serialize public_key_serialize (Some g2_gen) = Returns true (Some (l, 96)) /\ length l = 96%nat /\
  ffi_deserialize (public_key_deserialize fq2_sqrt (fun _ => true)) (l ++ [9]) = Returns true (Some (Some g2_gen)) /\
  ffi_serialize public_key_serialize_uncompressed (Some g2_gen) = Returns true (Some (u, 192)) /\ length u = 192%nat /\
  public_key_deserialize_uncompressed (fun _ => true) u = Ok (Some g2_gen).
Proof. apply C60_public_key_bytes; [exact fq2_sqrt_ok|reflexivity|]. intros Q H. injection H as <-. split; [exact g2_gen_on|reflexivity]. Qed.
Definition refused {T} (x : reply T) : bool := match x with Returns false None => true | _ => false end.
Example ex_C60_refused sqrt sqrt' ins ins' : refused (ffi_deserialize (public_key_deserialize sqrt ins) (repeat 0 95 ++ [192])) = true /\
  refused (ffi_deserialize (signature_deserialize sqrt' ins') (repeat 0 47)) = true.
Proof. split; vm_compute; reflexivity. Qed.
Example ex_C60_crh : ffi_hash_crh (fun _ => Ok (repeat 0 48)) [1] 96 = Returns true (Some (repeat 0 48, 48)) /\
  ffi_hash_crh (fun _ => Err HashToCurveError) [1] 96 = Returns false None.
Proof. split; vm_compute; reflexivity. Qed.
Example ex_C60_first_step : exists l, ffi_hash_direct_first_step [1; 2; 3] 33 = Returns true (Some (l, 33)) /\ length l = 33%nat.
Proof. destruct (C60_first_step [1; 2; 3] 33 ltac:(lia)) as (l & H & L & _). exists l. split; [exact H|lia]. Qed.
Example ex_C60_message : message_ffi_from (Msg [1] [] (to_public (pr := zr_pairing) 3) gz) = Panic /\
  message_ffi_from (Msg [1] [2] (to_public (pr := zr_pairing) 3) gz) = Ok (Msg [1] [2] (to_public 3) gz).
Proof. split; reflexivity. Qed.
