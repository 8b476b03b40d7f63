(** C30: serialisation of keys and signatures. [in_subgroup] is the test of membership in the
    prime-order subgroup and [sqrt] any square-root function. *)
From Verif Require Import Base Constants Field Curve BlsModel EncodingModel PointModel HashCurveSpec CodecModel CodecSpec HashCurveProofs CodecProofs.

(** Exactly which byte strings are accepted, and what they are read as. *)
Theorem C30_private_key_accepts : forall l sk, is_bytes l = true ->
  private_key_deserialize l = Ok sk <-> (32 <= length l)%nat /\ sk = number (firstn 32 l) /\ sk < r.
Proof. exact private_number. Qed.
Theorem C30_signature_accepts : forall sqrt in_subgroup l P, sqrt_spec qmul sqrt -> is_bytes l = true ->
  signature_deserialize sqrt in_subgroup l = Ok P <->
  (48 <= length l)%nat /\ wire_g1 (number (firstn 48 l)) P /\ (forall Q, P = Some Q -> in_subgroup Q = true).
Proof. intros sqrt in_subgroup l P Hs. exact (sig_deser_iff sqrt Hs in_subgroup l P). Qed.
Theorem C30_public_key_accepts : forall sqrt in_subgroup l P, sqrt_spec q2mul sqrt -> is_bytes l = true ->
  public_key_deserialize sqrt in_subgroup l = Ok P <->
  (96 <= length l)%nat /\ wire_g2 (number (firstn 96 l)) P /\ (forall Q, P = Some Q -> in_subgroup Q = true).
Proof. intros sqrt in_subgroup l P Hs. exact (pk_deser_iff sqrt Hs in_subgroup l P). Qed.

(** Round trips; whatever follows the serialised value is ignored. *)
Theorem C30_private_key_roundtrip : forall sk rest, is_bytes rest = true -> 0 <= sk < r ->
  private_key_deserialize (private_key_serialize sk ++ rest) = Ok sk.
Proof.
  intros sk rest Hr H. apply private_iff; [|split; [exact H|exists rest; reflexivity]].
  unfold private_key_serialize, fp_write. rewrite or_last_0, PointProofs.is_bytes_app, EncodingProofs.le_bytes_is_bytes. exact Hr.
Qed.
Theorem C30_signature_roundtrip : forall sqrt in_subgroup P rest, sqrt_spec qmul sqrt -> is_bytes rest = true ->
  (forall Q, P = Some Q -> g1_equation Q /\ in_subgroup Q = true) ->
  signature_deserialize sqrt in_subgroup (signature_serialize P ++ rest) = Ok P.
Proof. intros sqrt in_subgroup P rest Hs. exact (sig_roundtrip sqrt Hs in_subgroup P rest). Qed.
Theorem C30_public_key_roundtrip : forall sqrt in_subgroup P rest, sqrt_spec q2mul sqrt -> is_bytes rest = true ->
  (forall Q, P = Some Q -> g2_equation Q /\ in_subgroup Q = true) ->
  public_key_deserialize sqrt in_subgroup (public_key_serialize P ++ rest) = Ok P.
Proof. intros sqrt in_subgroup P rest Hs. exact (pk_roundtrip sqrt Hs in_subgroup P rest). Qed.
Theorem C30_uncompressed_roundtrip :
  (forall in_subgroup P rest, (forall Q, P = Some Q -> in_subgroup Q = true) ->
    signature_deserialize_uncompressed in_subgroup (signature_serialize_uncompressed P ++ rest) = Ok P) /\
  (forall in_subgroup P rest, (forall Q, P = Some Q -> in_subgroup Q = true) ->
    public_key_deserialize_uncompressed in_subgroup (public_key_serialize_uncompressed P ++ rest) = Ok P).
Proof. split; [exact sig_uroundtrip|exact pk_uroundtrip]. Qed.
Theorem C30_sizes : (forall sk, length (private_key_serialize sk) = 32%nat) /\
  (forall P, length (signature_serialize P) = 48%nat /\ length (signature_serialize_uncompressed P) = 96%nat) /\
  (forall P, length (public_key_serialize P) = 96%nat /\ length (public_key_serialize_uncompressed P) = 192%nat).
Proof. exact sizes. Qed.

(** An accepted string is the canonical one, except for the ordinate equal to its negation (no such
    point has odd order) and for infinity. *)
Theorem C30_private_key_canonical : forall l sk, is_bytes l = true -> private_key_deserialize l = Ok sk ->
  0 <= sk < r /\ exists rest, l = private_key_serialize sk ++ rest.
Proof. intros l sk Hb. apply (private_iff l sk Hb). Qed.
Theorem C30_signature_canonical : forall sqrt in_subgroup l Q, sqrt_spec qmul sqrt -> is_bytes l = true ->
  signature_deserialize sqrt in_subgroup l = Ok (Some Q) -> snd Q <> qopp (snd Q) -> firstn 48 l = signature_serialize (Some Q).
Proof. intros sqrt in_subgroup l Q Hs. exact (sig_canonical sqrt Hs in_subgroup l Q). Qed.
Theorem C30_public_key_canonical : forall sqrt in_subgroup l Q, sqrt_spec q2mul sqrt -> is_bytes l = true ->
  public_key_deserialize sqrt in_subgroup l = Ok (Some Q) -> snd Q <> q2opp (snd Q) -> firstn 96 l = public_key_serialize (Some Q).
Proof. intros sqrt in_subgroup l Q Hs. exact (pk_canonical sqrt Hs in_subgroup l Q). Qed.
Theorem C30_uncompressed_subgroup :
  (forall in_subgroup l Q, signature_deserialize_uncompressed in_subgroup l = Ok (Some Q) -> in_subgroup Q = true) /\
  (forall in_subgroup l Q, public_key_deserialize_uncompressed in_subgroup l = Ok (Some Q) -> in_subgroup Q = true).
Proof. split; intros in_subgroup; apply udeser_subgroup. Qed.
(** Infinity has several accepted encodings of the same length: canonicity without the exception is false. *)
Theorem C30_canonical_refuted : exists l l', l <> l' /\ length l = 48%nat /\ length l' = 48%nat /\ is_bytes l = true /\ is_bytes l' = true /\
  forall sqrt in_subgroup, signature_deserialize sqrt in_subgroup l = Ok None /\ signature_deserialize sqrt in_subgroup l' = Ok None.
Proof.
  exists (repeat 0 47 ++ [64]), (1 :: repeat 0 46 ++ [64]). repeat split; try discriminate; vm_compute; reflexivity.
Qed.
(** Distinct curve points have distinct serialisations. *)
Theorem C30_serialize_injective :
  (forall P P', (forall Q, P = Some Q -> g1_equation Q) -> (forall Q, P' = Some Q -> g1_equation Q) ->
     signature_serialize P = signature_serialize P' -> P = P') /\
  (forall P P', (forall Q, P = Some Q -> g2_equation Q) -> (forall Q, P' = Some Q -> g2_equation Q) ->
     public_key_serialize P = public_key_serialize P' -> P = P').
Proof. split; [exact sig_ser_inj|exact pk_ser_inj]. Qed.

Print Assumptions C30_private_key_accepts.
Print Assumptions C30_signature_accepts.
Print Assumptions C30_public_key_accepts.
Print Assumptions C30_private_key_roundtrip.
Print Assumptions C30_signature_roundtrip.
Print Assumptions C30_public_key_roundtrip.
Print Assumptions C30_uncompressed_roundtrip.
Print Assumptions C30_sizes.
Print Assumptions C30_private_key_canonical.
Print Assumptions C30_signature_canonical.
Print Assumptions C30_public_key_canonical.
Print Assumptions C30_uncompressed_subgroup.
Print Assumptions C30_canonical_refuted.
Print Assumptions C30_serialize_injective.
