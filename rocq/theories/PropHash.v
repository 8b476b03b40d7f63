(** C22-C24 and the parameter-block part of C03. *)
From Verif Require Import Base Blake2 HasherModel HasherSpec HasherProofs.

(** ** C03 *)
Theorem C03_parameter_blocks_disjoint : forall len len' pb pb',
  In pb (direct_blocks SIG_DOMAIN len) -> In pb' (direct_blocks POP_DOMAIN len') -> pb <> pb'.
Proof. intros len len' pb pb'. apply domain_separation. discriminate. Qed.
Theorem C03_xof_blocks_disjoint : forall len len' pb pb',
  In pb (xof_blocks SIG_DOMAIN len) -> In pb' (xof_blocks POP_DOMAIN len') -> pb <> pb'.
Proof. intros len len' pb pb' H H'. apply (domain_separation SIG_DOMAIN POP_DOMAIN len len'); [discriminate|right|right]; assumption. Qed.
Theorem C03_blocks_are_those_used : forall d m len, (length d <= 8)%nat -> 0 <= len <= 2 ^ 53 ->
  exists root rest, direct_blocks d len = root :: rest /\ xof_blocks d len = rest /\
    direct_crh d m len = Ok (blake2s root m) /\ direct_xof d m len = Ok (flat_map (fun pb => blake2s pb m) rest) /\
    hash direct_hasher d m len = Ok (flat_map (fun pb => blake2s pb (blake2s root m)) rest).
Proof. exact blocks_used. Qed.
(** The public-input hash and the seed of the Pedersen generators use blocks of their own. *)
Theorem C03_other_uses_disjoint : forall d len pb, d = SIG_DOMAIN \/ d = POP_DOMAIN -> In pb (direct_blocks d len) ->
  pb <> param_block out_params /\ pb <> param_block prng_params.
Proof.
  intros d len pb Hd H. apply direct_blocks_personal in H.
  split; intros E; rewrite E, block_personal in H; destruct Hd as [-> | ->]; discriminate.
Qed.

(** ** C22 *)
Theorem C22_xof_output : forall d m len, (length d <= 8)%nat -> 0 <= len < 2 ^ 37 ->
  exists out, direct_xof d m len = Ok out /\ Z.of_nat (length out) = len /\ is_bytes out = true /\
    forall i, 0 <= i -> 32 * i < len ->
      firstn 32 (skipn (Z.to_nat (32 * i)) out) = blake2s (expand_block i len d) m.
Proof. exact xof_spec. Qed.
Theorem C22_domain_bound : forall d m len, (8 < length d)%nat ->
  direct_xof d m len = Err (DomainTooLarge (Z.of_nat (length d))).
Proof. exact xof_too_large. Qed.

(** ** C23 *)
Theorem C23_crh_blocks_injective : forall d d' len len', (length d <= 8)%nat -> (length d' <= 8)%nat ->
  0 <= len < 2 ^ 16 -> 0 <= len' < 2 ^ 16 ->
  param_block (crh_params d len) = param_block (crh_params d' len') -> len = len' /\ domain8 d = domain8 d'.
Proof. exact crh_params_inj. Qed.
Theorem C23_xof_blocks_injective : forall d d' i i' len len', (length d <= 8)%nat -> (length d' <= 8)%nat ->
  0 <= len < 2 ^ 16 -> 0 <= len' < 2 ^ 16 -> 0 <= i < num_hashes len -> 0 <= i' < num_hashes len' ->
  param_block (xof_params d i len) = param_block (xof_params d' i' len') -> i = i' /\ len = len' /\ domain8 d = domain8 d'.
Proof. exact xof_params_inj. Qed.
Theorem C23_roles_disjoint : forall d d' i len len', param_block (crh_params d len) <> param_block (xof_params d' i len').
Proof. exact crh_not_xof. Qed.
Theorem C23_crh_block_layout : forall d len, (length d <= 8)%nat -> param_block (crh_params d len) = root_block len d.
Proof. exact crh_block_eq. Qed.
(** the blocks of the public-input hash (personalization "ULforout") and of the Pedersen seed ("UL_prngs") *)
Theorem C23_fixed_blocks :
  param_block out_params = root_block 0 [85; 76; 102; 111; 114; 111; 117; 116] /\
  param_block prng_params = root_block 0 [85; 76; 95; 112; 114; 110; 103; 115].
Proof. split; reflexivity. Qed.
Theorem C23_length_truncated : forall d len m, (length d <= 8)%nat ->
  param_block (crh_params d (len + 2 ^ 16)) = param_block (crh_params d len) /\
  direct_crh d m (len + 2 ^ 16) = direct_crh d m len.
Proof. exact length_truncated. Qed.
Theorem C23_xof_length_truncated : forall d i len, 0 <= len -> 0 <= 32 * i -> 32 * i + 32 <= len ->
  param_block (xof_params d i (len + 2 ^ 16)) = param_block (xof_params d i len).
Proof. exact xof_length_truncated. Qed.
Theorem C23_padded_domains_identified : forall d d' m len, (length d <= 8)%nat -> (length d' <= 8)%nat -> 0 <= len <= 2 ^ 53 ->
  domain8 d = domain8 d' -> hash direct_hasher d m len = hash direct_hasher d' m len.
Proof. exact same_padding_same_hash. Qed.

(** ** C24 *)
Theorem C24_direct_panics : forall d m len, (8 < length d)%nat -> hash direct_hasher d m len = Panic.
Proof. exact direct_hash_panic. Qed.
Theorem C24_composite_reports : forall ped d m len c, (8 < length d)%nat -> ped m = Ok c ->
  hash (composite_hasher ped) d m len = Err (DomainTooLarge (Z.of_nat (length d))).
Proof. exact composite_hash_err. Qed.
Theorem C24_direct_short_domain : forall d m len, (length d <= 8)%nat -> 0 <= len < 2 ^ 37 ->
  exists out, hash direct_hasher d m len = Ok out /\ Z.of_nat (length out) = len.
Proof. exact direct_hash_ok. Qed.
Theorem C24_composite_short_domain : forall ped d m len c, (length d <= 8)%nat -> 0 <= len < 2 ^ 37 -> ped m = Ok c ->
  exists out, hash (composite_hasher ped) d m len = Ok out /\ Z.of_nat (length out) = len.
Proof. exact composite_hash_ok. Qed.

Print Assumptions C03_parameter_blocks_disjoint.
Print Assumptions C03_xof_blocks_disjoint.
Print Assumptions C03_blocks_are_those_used.
Print Assumptions C03_other_uses_disjoint.
Print Assumptions C22_xof_output.
Print Assumptions C22_domain_bound.
Print Assumptions C23_crh_blocks_injective.
Print Assumptions C23_xof_blocks_injective.
Print Assumptions C23_roles_disjoint.
Print Assumptions C23_crh_block_layout.
Print Assumptions C23_fixed_blocks.
Print Assumptions C23_length_truncated.
Print Assumptions C23_xof_length_truncated.
Print Assumptions C23_padded_domains_identified.
Print Assumptions C24_direct_panics.
Print Assumptions C24_composite_reports.
Print Assumptions C24_direct_short_domain.
Print Assumptions C24_composite_short_domain.
