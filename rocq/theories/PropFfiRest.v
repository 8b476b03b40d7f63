(** C60: keys, aggregates, serialised values and plain hashes through the C interface. *)
From Verif Require Import Base Constants Group Field Curve BlsModel BlsSpec CacheModel CacheSpec CacheProofs EncodingModel Blake2 HasherModel HasherSpec
  PointModel PointProofs HashCurveModel HashCurveSpec HashCurveProofs CodecModel CodecSpec CodecProofs PropCodec FfiModel FfiSpec FfiProofs FfiDataProofs FfiRestProofs.

Theorem C60_public_key : forall pr sk (pk : G2 pr), ffi_private_key_to_public_key sk = Returns true (Some pk) <-> is_dlog sk pk.
Proof. intros. apply public_key_iff. Qed.
Theorem C60_aggregate_value : forall pr (ss : list (G1 pr)) s, ffi_aggregate_signatures ss = Returns true (Some s) <-> s = total ss.
Proof. intros. apply aggregate_iff. Qed.
(** Each holder derives a key and signs; the sum of the keys accepts the aggregate of the signatures. *)
Theorem C60_aggregate_verifies : forall pr (direct composite cip22 : BlsModel.hasher pr) c f h m x H sks ss pks s pk,
  selected direct composite cip22 c f h -> h SIG_DOMAIN m x = Ok H ->
  Forall2 (fun sk s => ffi_sign_message direct composite cip22 sk m x c f = Returns true (Some s)) sks ss ->
  Forall2 (fun sk pk => ffi_private_key_to_public_key sk = Returns true (Some pk)) sks pks ->
  ffi_aggregate_signatures ss = Returns true (Some s) -> pk = total pks ->
  ffi_verify_signature direct composite cip22 pk m x s c f = Returns true (Some true).
Proof. intros pr d c' f' c f h m x H sks ss pks s pk A B C D E F. exact (aggregate_verifies_c d c' f' c f h m x H sks ss pks s pk A B C D E F). Qed.

(** The bytes written, their reported number, and what they are read back as. *)
Theorem C60_private_key_bytes : forall sk rest, 0 <= sk < r -> is_bytes rest = true -> exists l,
  ffi_serialize private_key_serialize sk = Returns true (Some (l, 32)) /\ length l = 32%nat /\
  ffi_deserialize private_key_deserialize (l ++ rest) = Returns true (Some sk).
Proof.
  intros sk rest H B. exists (private_key_serialize sk). pose proof (proj1 C30_sizes sk) as L. split; [|split; [exact L|]].
  - apply serialize_iff. rewrite L. split; reflexivity.
  - apply deserialize_iff. apply C30_private_key_roundtrip; assumption.
Qed.
Theorem C60_signature_bytes : forall sqrt in_subgroup P rest, sqrt_spec qmul sqrt -> is_bytes rest = true ->
  (forall Q, P = Some Q -> g1_equation Q /\ in_subgroup Q = true) -> exists l u,
  ffi_serialize signature_serialize P = Returns true (Some (l, 48)) /\ length l = 48%nat /\
  ffi_deserialize (signature_deserialize sqrt in_subgroup) (l ++ rest) = Returns true (Some P) /\
  ffi_serialize signature_serialize_uncompressed P = Returns true (Some (u, 96)) /\ length u = 96%nat /\
  signature_deserialize_uncompressed in_subgroup u = Ok P.
Proof.
  intros sqrt in_subgroup P rest S B V. destruct (proj1 (proj2 C30_sizes) P) as [L1 L2].
  exists (signature_serialize P), (signature_serialize_uncompressed P).
  split; [apply serialize_iff; rewrite L1; split; reflexivity|]. split; [exact L1|].
  split; [apply deserialize_iff; apply C30_signature_roundtrip; assumption|].
  split; [apply serialize_iff; rewrite L2; split; reflexivity|]. split; [exact L2|].
  rewrite <- (app_nil_r (signature_serialize_uncompressed P)). apply (proj1 C30_uncompressed_roundtrip). intros Q H. apply V, H.
Qed.
Theorem C60_public_key_bytes : forall sqrt in_subgroup P rest, sqrt_spec q2mul sqrt -> is_bytes rest = true ->
  (forall Q, P = Some Q -> g2_equation Q /\ in_subgroup Q = true) -> exists l u,
  ffi_serialize public_key_serialize P = Returns true (Some (l, 96)) /\ length l = 96%nat /\
  ffi_deserialize (public_key_deserialize sqrt in_subgroup) (l ++ rest) = Returns true (Some P) /\
  ffi_serialize public_key_serialize_uncompressed P = Returns true (Some (u, 192)) /\ length u = 192%nat /\
  public_key_deserialize_uncompressed in_subgroup u = Ok P.
Proof.
  intros sqrt in_subgroup P rest S B V. destruct (proj2 (proj2 C30_sizes) P) as [L1 L2].
  exists (public_key_serialize P), (public_key_serialize_uncompressed P).
  split; [apply serialize_iff; rewrite L1; split; reflexivity|]. split; [exact L1|].
  split; [apply deserialize_iff; apply C30_public_key_roundtrip; assumption|].
  split; [apply serialize_iff; rewrite L2; split; reflexivity|]. split; [exact L2|].
  rewrite <- (app_nil_r (public_key_serialize_uncompressed P)). apply (proj2 C30_uncompressed_roundtrip). intros Q H. apply V, H.
Qed.
(** Every byte string is either read as the value it stands for, or refused with false and nothing written. *)
Theorem C60_deserialize_private_key : forall l, is_bytes l = true ->
  (forall sk, ffi_deserialize private_key_deserialize l = Returns true (Some sk) <-> (32 <= length l)%nat /\ sk = number (firstn 32 l) /\ sk < r) /\
  (~ ((32 <= length l)%nat /\ number (firstn 32 l) < r) -> ffi_deserialize private_key_deserialize l = Returns false None).
Proof.
  intros l B. split; [intros sk; rewrite deserialize_iff; apply C30_private_key_accepts, B|]. intros N. apply deserialize_else; [apply private_de_total|].
  intros v H. apply N. apply C30_private_key_accepts in H; [|exact B]. destruct H as (H1 & -> & H2). split; assumption.
Qed.
Theorem C60_deserialize_signature : forall sqrt in_subgroup l, sqrt_spec qmul sqrt -> is_bytes l = true ->
  let stands_for P := (48 <= length l)%nat /\ wire_g1 (number (firstn 48 l)) P /\ (forall Q, P = Some Q -> in_subgroup Q = true) in
  (forall P, ffi_deserialize (signature_deserialize sqrt in_subgroup) l = Returns true (Some P) <-> stands_for P) /\
  (~ (exists P, stands_for P) -> ffi_deserialize (signature_deserialize sqrt in_subgroup) l = Returns false None).
Proof.
  intros sqrt in_subgroup l S B stands_for. split; [intros P; rewrite deserialize_iff; apply C30_signature_accepts; assumption|].
  intros N. apply deserialize_else; [apply affine_de_total|]. intros P H. apply N. exists P. apply C30_signature_accepts in H; assumption.
Qed.
Theorem C60_deserialize_public_key : forall sqrt in_subgroup l, sqrt_spec q2mul sqrt -> is_bytes l = true ->
  let stands_for P := (96 <= length l)%nat /\ wire_g2 (number (firstn 96 l)) P /\ (forall Q, P = Some Q -> in_subgroup Q = true) in
  (forall P, ffi_deserialize (public_key_deserialize sqrt in_subgroup) l = Returns true (Some P) <-> stands_for P) /\
  (~ (exists P, stands_for P) -> ffi_deserialize (public_key_deserialize sqrt in_subgroup) l = Returns false None).
Proof.
  intros sqrt in_subgroup l S B stands_for. split; [intros P; rewrite deserialize_iff; apply C30_public_key_accepts; assumption|].
  intros N. apply deserialize_else; [apply affine_de_total|]. intros P H. apply N. exists P. apply C30_public_key_accepts in H; assumption.
Qed.
(** The cached variant answers as a decoder without a cache, whatever was called before. *)
Theorem C60_cached_deserialize : forall (E : cenv) (h : list (cop E)) d,
  snd (ffi_deserialize_public_key_cached (crun h) d) = match decode (c := E) d with Some k => Returns true (Some k) | None => Returns false None end.
Proof.
  intros E h d. unfold ffi_deserialize_public_key_cached. pose proof (deserialize_any_history h d) as H.
  destruct (cache_deserialize (crun h) d) as [c' key]. cbn [snd] in *. rewrite H. unfold fresh_decode. destruct (decode d); reflexivity.
Qed.

(** The Pedersen hash alone: neither the requested length nor a domain enters, and the CIP22 point of a message is
    determined by it and the extra data. *)
Theorem C60_crh : forall pedersen m n l k, ffi_hash_crh pedersen m n = Returns true (Some (l, k)) <-> pedersen m = Ok l /\ k = as_c_int (Z.of_nat (length l)).
Proof. exact crh_iff. Qed.
Theorem C60_crh_determines_cip22 : forall pedersen E of_point sqrt rep_of m m' x n n' out,
  ffi_hash_crh pedersen m n = Returns true (Some out) -> ffi_hash_crh pedersen m' n' = Returns true (Some out) ->
  ffi_hash_composite_cip22 E of_point sqrt rep_of pedersen m x = ffi_hash_composite_cip22 E of_point sqrt rep_of pedersen m' x.
Proof.
  intros pedersen E of_point sqrt rep_of m m' x n n' out H H'.
  destruct (crh_same_point pedersen E of_point sqrt rep_of m m' x n n' (eq_trans H (eq_sym H'))) as [A|(e & e' & A & _)]; [exact A|].
  destruct out as [l k]. apply crh_iff in H. destruct H as [H _]. congruence.
Qed.
(** The first step of the direct hash, block by block. *)
Theorem C60_first_step : forall m n, 0 <= n < 2 ^ 31 -> exists l,
  ffi_hash_direct_first_step m n = Returns true (Some (l, n)) /\ Z.of_nat (length l) = n /\
  (forall i, 0 <= i -> 32 * i < n -> firstn 32 (skipn (Z.to_nat (32 * i)) l) = blake2s (expand_block i n SIG_DOMAIN) (blake2s (root_block n SIG_DOMAIN) m)).
Proof. exact first_step_spec. Qed.
(** [hash_direct_with_attempt] (signature domain) is the search over first steps of 64 bytes with the counter in front of the message. *)
Theorem C60_first_step_is_the_candidate : forall (E : grp) of_point sqrt affine_of m out, sqrt_spec qmul sqrt ->
  ffi_hash_direct_with_attempt E of_point sqrt affine_of m false = Returns true (Some out) <->
  exists P c, least_success (fun c => match ffi_hash_direct_first_step (c :: m) 64 with Returns true (Some (l, _)) => Ok l | _ => Panic end) 48
      (gives (denotes_g1 377) of_point G1_COFACTOR 48) P c /\ out = ((g1_affine_write (affine_of P), 97), c).
Proof.
  intros E of_point sqrt affine_of m out S. rewrite direct_with_attempt_iff by exact S.
  assert (Q : forall c, match ffi_hash_direct_first_step (c :: m) 64 with Returns true (Some (l, _)) => Ok l | _ => Panic end = hash direct_hasher SIG_DOMAIN (c :: m) 64).
  { intros c. destruct (first_step_spec (c :: m) 64 ltac:(lia)) as (l & H & _). rewrite H. symmetry. apply first_step_hash; [lia|exact H]. }
  unfold least_success, unusable. split; intros (P & c & (R & (o & D & L) & U) & ->); exists P, c; (split; [|reflexivity]); split; try exact R.
  - split; [exists o; rewrite Q; auto|]. intros c' Hc. destruct (U c' Hc) as (o' & D' & L'). exists o'. rewrite Q. auto.
  - rewrite Q in D. split; [exists o; auto|]. intros c' Hc. destruct (U c' Hc) as (o' & D' & L'). rewrite Q in D'. exists o'. auto.
Qed.
(** Lending a message to C: an empty message or empty extra data panics, anything else arrives unchanged. *)
Theorem C60_message_conversion : forall pr (m : message pr),
  (m_data m = [] \/ m_extra m = [] -> message_ffi_from m = Panic) /\ (m_data m <> [] -> m_extra m <> [] -> message_ffi_from m = Ok m).
Proof.
  intros pr m. rewrite message_cases. destruct (m_data m), (m_extra m); split; intros; try reflexivity; try congruence.
  destruct H as [H|H]; discriminate H.
Qed.
Print Assumptions C60_public_key.
Print Assumptions C60_aggregate_value.
Print Assumptions C60_aggregate_verifies.
Print Assumptions C60_private_key_bytes.
Print Assumptions C60_signature_bytes.
Print Assumptions C60_public_key_bytes.
Print Assumptions C60_deserialize_private_key.
Print Assumptions C60_deserialize_signature.
Print Assumptions C60_deserialize_public_key.
Print Assumptions C60_cached_deserialize.
Print Assumptions C60_crh.
Print Assumptions C60_crh_determines_cip22.
Print Assumptions C60_first_step.
Print Assumptions C60_first_step_is_the_candidate.
Print Assumptions C60_message_conversion.
