(** C62: what a light client that calls [verify] through the C interface may conclude.  [e]: the pairing; [of1], [of2]:
    points as group elements; [to1], [to2]: coordinates; [ped]: the Pedersen hash (C61_circuit_parameter);
    [vkd], [pd], [vp]: Groth16 decoding and verification. *)
From Verif Require Import Base Constants Group Field Curve BitsModel EncodingModel EncodingSpec HasherModel PointModel HashCurveModel HashCurveSpec
  GadgetSpec Circuit HashGadgetModel EpochCircuitModel EpochSpec EpochCircuitSpec ProverSpec FfiModel FfiSpec LightSpec LightProofs.

Section Light.
  Context (E1 E2 GT : grp) (e : E1 -> E2 -> GT) (gen1 : E1) (gen2 : E2).
  Context (of1 : apoint fq -> E1) (of2 : apoint fq2 -> E2) (to1 : E1 -> apoint fq) (to2 : E2 -> apoint fq2).
  Context (sqrt : fq -> option fq) (ped : bytes -> option fq) (compat debug : bool).
  Context (HP : Type) (helper_verify : HP -> list (list bool) -> bool).
  Notation circuit := (generate_constraints e gen1 gen2 of1 of2 to1 to2 sqrt ped compat true debug helper_verify).
  Notation cert := (certified e gen2 (opens_to of2) (hashes_to of1 (native_ped ped) compat)).

  (** If [verify] returns true and the proof system is sound for the circuit without helper proof, then there are
      headers, no dummies among them and no more than the circuit's epochs, certified from a header [h0] that shows the
      first block to a header [hl] that shows the last block (or else the two edge messages at hand collide). *)
  Theorem C62_verified : forall sqrt2 in_subgroup vkey proof (vkd : bytes -> result vkey) (pd : bytes -> result proof) vp n w v vk pf first last,
    linear_at e gen2 -> gen2 <> gz -> sqrt_spec q2mul sqrt2 -> sizes n w -> vsu_helper w = None ->
    sound_for (fun q inputs => vp v q inputs = Ok true) (holds (circuit w)) ->
    c_block first -> c_block last -> vkd vk = Ok v ->
    ffi_verify sqrt2 in_subgroup vkd pd vp blake2_out vk pf first last = Returns true None ->
    exists f l h0 hs hl pairs s, epoch_block_try_from sqrt2 in_subgroup first = Ok f /\ epoch_block_try_from sqrt2 in_subgroup last = Ok l /\
      (length (hs ++ [hl]) <= length (vsu_epochs w))%nat /\ cert n h0 (hs ++ [hl]) pairs s /\
      (shows_first of2 h0 f \/ collides (first_bits h0) (enc_first f)) /\
      (shows_last of2 hl l \/ exists agg, sums_to to2 hl agg /\ collides (closing_bits hl ++ agg) (enc_last l)).
  Proof. intros sqrt2 in_subgroup vkey proof vkd pd vp. apply verified. Qed.

  (** Such headers are as many as the indices are apart, *)
  Theorem C62_distance : forall n h0 hs hl pairs s f l, cert n h0 (hs ++ [hl]) pairs s -> shows_first of2 h0 f -> shows_last of2 hl l ->
    eb_index l = (eb_index f + Z.of_nat (length (hs ++ [hl]))) mod 2 ^ 16.
  Proof. intros n. apply distance. Qed.
  (** the first of them is signed by validators of the first block, never by a padding key, *)
  Theorem C62_first_signers : forall n h0 h l pairs s f, cert n h0 (h :: l) pairs s -> shows_first of2 h0 f ->
    exists H signing rest, pairs = (H, sum signing) :: rest /\ hashes_to of1 (native_ped ped) compat h H /\ sum signing <> gz /\
      Forall (fun k => k <> gen2 /\ exists K, In K (padded_keys f) /\ same_key of2 k K) signing /\
      Z.of_nat (length (padded_keys f)) - fqv (h_max h0) <= Z.of_nat (length signing).
  Proof. intros n h0 h l pairs s f. apply first_signers. Qed.
  (** and for consecutive indices that quorum has signed the last block itself. *)
  Theorem C62_one_transition : forall n h0 hs hl pairs s f l, linear_at e gen2 -> cert n h0 (hs ++ [hl]) pairs s -> shows_first of2 h0 f -> shows_last of2 hl l ->
    Z.of_nat (length (hs ++ [hl])) < 2 ^ 16 -> eb_index l = (eb_index f + 1) mod 2 ^ 16 ->
    hs = [] /\ exists H signing, hashes_to of1 (native_ped ped) compat hl H /\ e s gen2 = e H (sum signing) /\ sum signing <> gz /\
      Forall (fun k => k <> gen2 /\ exists K, In K (padded_keys f) /\ same_key of2 k K) signing /\
      Z.of_nat (length (padded_keys f)) - fqv (h_max h0) <= Z.of_nat (length signing).
  Proof. intros n h0 hs hl pairs s f l. apply one_transition. Qed.
End Light.
Print Assumptions C62_verified.
Print Assumptions C62_distance.
Print Assumptions C62_first_signers.
Print Assumptions C62_one_transition.
