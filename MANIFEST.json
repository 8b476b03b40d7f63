{
 "claims": [
  {
   "property": "C01",
   "status": "proved",
   "theorems": [
    "C01_sign_then_verify",
    "C01_sign_pop_then_verify_pop",
    "C01_sign_fails_exactly_with_hash",
    "C01_sign_pop_fails_exactly_with_hash"
   ],
   "note": "For every pairing structure of order r and every hash oracle."
  },
  {
   "property": "C02",
   "status": "proved",
   "theorems": [
    "C02_verify_accepts_exactly_one",
    "C02_verify_iff_valid",
    "C02_verify_pop_iff_valid",
    "C02_hash_error_propagates"
   ],
   "note": "Exact acceptance set, stated with discrete logarithms."
  },
  {
   "property": "C03",
   "status": "proved",
   "theorems": [
    "C03_queries_are_domain_separated",
    "C03_cross_use_iff_collision",
    "C03_parameter_blocks_disjoint",
    "C03_xof_blocks_disjoint",
    "C03_blocks_are_those_used",
    "C03_other_uses_disjoint"
   ],
   "note": "Query domains, cross-use, and disjoint BLAKE2 parameter blocks. The Pedersen CRH of the composite hasher ignores the domain; there only the XOF separates."
  },
  {
   "property": "C04",
   "status": "proved",
   "theorems": [
    "C04_aggregate_verifies",
    "C04_aggregate_accepts_iff_sum",
    "C04_aggregate_order_and_grouping"
   ],
   "note": "Verification of aggregates, order/grouping independence, exact acceptance."
  },
  {
   "property": "C05",
   "status": "proved",
   "theorems": [
    "C05_lengths_checked_first",
    "C05_first_hash_error",
    "C05_accepts_iff_sum",
    "C05_decision_when_all_hash",
    "C05_order_irrelevant"
   ],
   "note": "Length check first, first hash error, exact acceptance, permutation invariance; the traces of oracle queries are part of the statements."
  },
  {
   "property": "C06",
   "status": "proved",
   "theorems": [
    "C06_errors_cancel_refuted",
    "C06_last_component_forced"
   ],
   "note": "C06_errors_cancel_refuted is the witness that components need not be valid; C06_last_component_forced is the positive half."
  },
  {
   "property": "C07",
   "status": "proved",
   "theorems": [
    "C07_batch_points",
    "C07_linear",
    "C07_combined_signatures_valid"
   ],
   "note": "None iff lengths differ, value is the linear combination, linearity, validity preserved."
  },
  {
   "property": "C08",
   "status": "proved",
   "theorems": [
    "C08_batch_complete",
    "C08_batch_contents"
   ],
   "note": "For every random draw of the size the code requests."
  },
  {
   "property": "C09",
   "status": "proved",
   "theorems": [
    "C09_one_exponent_at_most",
    "C09_accepting_fraction",
    "C09_security"
   ],
   "note": "Uniqueness of the accepting exponent and the counting bound over duplicate-free sets of draws."
  },
  {
   "property": "C10",
   "status": "proved",
   "theorems": [
    "C10_exponent_size",
    "C10_exponent_security",
    "C10_scalars_total_and_injective",
    "C10_verify_never_panics"
   ],
   "note": "For every batch size up to usize::MAX."
  },
  {
   "property": "C11",
   "status": "proved",
   "theorems": [
    "C11_verify_each_iff",
    "C11_verify_each_calls",
    "C11_first_failure",
    "C11_each_implies_batch"
   ],
   "note": ""
  },
  {
   "property": "C12",
   "status": "proved",
   "theorems": [
    "C12_aggregate_is_set_sum_after_any_history",
    "C12_history_order_and_iteration_independent"
   ],
   "note": "For every finite history of calls, every choice of hash function on points, and every environment."
  },
  {
   "property": "C13",
   "status": "proved",
   "theorems": [
    "C13_cached_equals_plain_without_duplicates",
    "C13_duplicates_counted_once",
    "C13_two_representations_counted_twice"
   ],
   "note": ""
  },
  {
   "property": "C14",
   "status": "proved",
   "theorems": [
    "C14_cached_decode_transparent",
    "C14_failures_leave_no_trace"
   ],
   "note": ""
  },
  {
   "property": "C15",
   "status": "proved",
   "theorems": [
    "C15_capacity_and_uniqueness",
    "C15_holds_most_recently_used"
   ],
   "note": ""
  },
  {
   "property": "C16",
   "status": "proved",
   "theorems": [
    "C16_without_lock_refuted",
    "C16_every_call_as_if_alone",
    "C16_no_call_lost",
    "C16_no_deadlock"
   ],
   "note": "C16_without_lock_refuted shows the lock is needed."
  },
  {
   "property": "C17",
   "status": "proved",
   "theorems": [
    "C17_bits_to_bytes",
    "C17_bytes_to_bits",
    "C17_bytes_bits_bytes",
    "C17_bits_bytes_bits"
   ],
   "note": ""
  },
  {
   "property": "C18",
   "status": "proved",
   "theorems": [
    "C18_length",
    "C18_injective",
    "C18_layout",
    "C18_last_bit_selects_y",
    "C18_key_layout"
   ],
   "note": "Every point of the twist including infinity; uses that -5 is a non-residue mod p (checked by computation)."
  },
  {
   "property": "C19",
   "status": "proved",
   "theorems": [
    "C19_first_epoch_injective",
    "C19_last_epoch_injective",
    "C19_signed_message_injective",
    "C19_plain_injective",
    "C19_lengths",
    "C19_layouts",
    "C19_layout_determines_bytes"
   ],
   "note": "At the byte level; the number of validators need not be fixed, padded key lists are compared."
  },
  {
   "property": "C20",
   "status": "proved",
   "theorems": [
    "C20_absent_entropy_is_zero_entropy",
    "C20_padding_is_explicit_generators",
    "C20_last_epoch_distinguishes_padding",
    "C20_short_entropies_collide"
   ],
   "note": ""
  },
  {
   "property": "C21",
   "status": "proved",
   "theorems": [
    "C21_public_inputs_value",
    "C21_public_inputs_injective"
   ],
   "note": "For every hash with 32-byte outputs."
  },
  {
   "property": "C22",
   "status": "proved",
   "theorems": [
    "C22_xof_output",
    "C22_domain_bound"
   ],
   "note": "Lengths up to 2^37, which keeps the block counter below 2^32."
  },
  {
   "property": "C23",
   "status": "proved",
   "theorems": [
    "C23_crh_blocks_injective",
    "C23_xof_blocks_injective",
    "C23_roles_disjoint",
    "C23_crh_block_layout",
    "C23_fixed_blocks",
    "C23_length_truncated",
    "C23_xof_length_truncated",
    "C23_padded_domains_identified"
   ],
   "note": ""
  },
  {
   "property": "C24",
   "status": "proved",
   "theorems": [
    "C24_direct_panics",
    "C24_composite_reports",
    "C24_direct_short_domain",
    "C24_composite_short_domain"
   ],
   "note": "For the composite hasher: every input its Pedersen CRH accepts."
  },
  {
   "property": "C25",
   "status": "proved",
   "theorems": [
    "C25_g1_least_counter",
    "C25_g1_failure",
    "C25_g1_cip22_least_counter",
    "C25_g1_cip22_failure",
    "C25_g2_least_counter",
    "C25_g2_cip22_least_counter",
    "C25_hash_is_attempt",
    "C25_premises_hold"
   ],
   "note": "Stated for every hasher, curve group and square-root function meeting the stated laws; instances in HashCurveExamples.v."
  },
  {
   "property": "C26",
   "status": "proved",
   "theorems": [
    "C26_g1_subgroup",
    "C26_g2_subgroup"
   ],
   "note": "The group law and order of the curve are laws of the curve_group record (cofactor * r kills every point)."
  },
  {
   "property": "C27",
   "status": "proved",
   "theorems": [
    "C27_plain_concatenation",
    "C27_plain_signature_reuse",
    "C27_plain_pairs_not_separated",
    "C27_cip22_inputs_disjoint",
    "C27_crh_width",
    "C27_cip22_uses_digest_only"
   ],
   "note": ""
  },
  {
   "property": "C28",
   "status": "proved",
   "theorems": [
    "C28_g1_decode",
    "C28_g2_decode",
    "C28_g1_on_curve",
    "C28_g2_on_curve",
    "C28_g1_sign_flip",
    "C28_g2_sign_flip",
    "C28_flags"
   ],
   "note": "The square-root function is any function meeting sqrt_spec; a concrete one is proved to meet it."
  },
  {
   "property": "C29",
   "status": "proved",
   "theorems": [
    "C29_hash_length",
    "C29_model_length",
    "C29_unbounded_refuted"
   ],
   "note": "f64 arithmetic is Flocq binary64; the unbounded version is refuted."
  },
  {
   "property": "C30",
   "status": "proved",
   "theorems": [
    "C30_private_key_accepts",
    "C30_signature_accepts",
    "C30_public_key_accepts",
    "C30_private_key_roundtrip",
    "C30_signature_roundtrip",
    "C30_public_key_roundtrip",
    "C30_uncompressed_roundtrip",
    "C30_sizes",
    "C30_private_key_canonical",
    "C30_signature_canonical",
    "C30_public_key_canonical",
    "C30_uncompressed_subgroup",
    "C30_canonical_refuted",
    "C30_serialize_injective"
   ],
   "note": "Non-canonical accepted strings: infinity with any abscissa (refutation included), trailing bytes, and a zero ordinate. Uncompressed reading does not check the curve equation in the ark-ec version used, so only the round trip and the subgroup test are claimed there."
  },
  {
   "property": "C31",
   "status": "proved",
   "theorems": [
    "C31_is_eq_zero",
    "C31_is_eq_zero_honest"
   ],
   "note": ""
  },
  {
   "property": "C32",
   "status": "proved",
   "theorems": [
    "C32_normalize",
    "C32_midpoint_refuted",
    "C32_midpoint_only",
    "C32_constants",
    "C32_normalize_honest"
   ],
   "note": "The exception at (p-1)/2 is proved to be real and to be the only one."
  },
  {
   "property": "C33",
   "status": "proved",
   "theorems": [
    "C33_g1_sign",
    "C33_g2_sign",
    "C33_g2_encoding",
    "C33_any_y",
    "C33_honest",
    "C33_g2_midpoint_refuted"
   ],
   "note": "Stated on affine coordinates (Z = 1). On G1's curve no point has the midpoint ordinate, so there the bit is always determined; on the twist the exception is real and a point is exhibited. What happens when a witness point has Z <> 1 is treated under C38, C44 and C56."
  },
  {
   "property": "C34",
   "status": "proved",
   "theorems": [
    "C34_threshold",
    "C34_honest",
    "C34_overflow"
   ],
   "note": "An empty bitmap fails with MissingCS; maxima from (p-1)/2 on are never satisfiable. The setup mode, which skips the counting, is not modelled."
  },
  {
   "property": "C35",
   "status": "proved",
   "theorems": [
    "C35_aggregate",
    "C35_honest",
    "C35_lengths",
    "C35_all_keys"
   ],
   "note": "Over any abelian group; the group operations of ark-r1cs-std are taken as the group law."
  },
  {
   "property": "C36",
   "status": "proved",
   "theorems": [
    "C36_verify",
    "C36_batch_verify",
    "C36_verify_native",
    "C36_batch_native",
    "C36_honest",
    "C36_uneven_refuted",
    "C36_zero_key_refuted"
   ],
   "note": "prepare_g2 rejects infinity, so aggregates equal to zero are excluded; the batch gadget zips its lists where the native code reports UnevenNumKeysMessages (both differences have refutations)."
  },
  {
   "property": "C37",
   "status": "proved",
   "theorems": [
    "C37_block_bits",
    "C37_bytes",
    "C37_block_hash",
    "C37_gadget_hash_input",
    "C37_parameter_block",
    "C37_native_in_gadget",
    "C37_unpadded_refuted"
   ],
   "note": "Blocks with as many keys as maximum_validators. A block with fewer keys is padded by the native encodings only (C37_unpadded_refuted)."
  },
  {
   "property": "C38",
   "status": "proved",
   "theorems": [
    "C38_least_counter_refuted",
    "C38_sound",
    "C38_unique",
    "C38_any_counter"
   ],
   "note": "Exact characterisation for allocated points with Z in {0,1}; see C56 for free Z. The digest with zero abscissa bits and sign 0 is also opened by the point at infinity. Any successful counter is accepted (refutation of \"least counter\" on a concrete message)."
  },
  {
   "property": "C39",
   "status": "proved",
   "theorems": [
    "C39_replay",
    "C39_helper_ignored",
    "C39_free_bits",
    "C39_any_point"
   ],
   "note": "Gadget level (C39_free_bits, C39_any_point) and whole circuit: any hash points are accepted (C39_replay), and neither the helper proof nor its verification matters (C39_helper_ignored)."
  },
  {
   "property": "C40",
   "status": "proved",
   "theorems": [
    "C40_native",
    "C40_low_bits",
    "C40_determined",
    "C40_high_bits_refuted"
   ],
   "note": "The bits above the chunk length are not constrained (refutation)."
  },
  {
   "property": "C41",
   "status": "proved",
   "theorems": [
    "C41_low_bits",
    "C41_modulo",
    "C41_in_range",
    "C41_not_determined_refuted"
   ],
   "note": "C41_not_determined_refuted: for widths below 376 other witnesses share the bits."
  },
  {
   "property": "C42",
   "status": "proved",
   "theorems": [
    "C42_update",
    "C42_progression",
    "C42_dummies_ignored",
    "C42_dummy_carried"
   ],
   "note": "Step and whole circuit. C42_progression and the theorems on whole assignments are for pin = true; with a free third coordinate (C56) the same holds with the weaker reading of key bits, see circuit_holds."
  },
  {
   "property": "C43",
   "status": "proved",
   "theorems": [
    "C43_update",
    "C43_linked",
    "C43_links_optional",
    "C43_unlinked_refuted"
   ],
   "note": "C43_links_optional: the circuit accepts exactly the chains without the link condition, because the initial epoch entropy is not in the public inputs; C43_unlinked_refuted gives the accepted chains."
  },
  {
   "property": "C44",
   "status": "proved",
   "theorems": [
    "C44_statement",
    "C44_quorums",
    "C44_enough_signers",
    "C44_update",
    "C44_digests",
    "C44_first_shown",
    "C44_last_shown"
   ],
   "note": "For pin = true (third projective coordinate 0 or 1); without it C56_forgery_refuted. Public inputs determine the BLAKE2s digests of the two edge encodings (C44_digests); equal encodings determine the fields modulo their width (C44_first_shown, C44_last_shown)."
  },
  {
   "property": "C45",
   "status": "proved",
   "theorems": [
    "C45_threshold_refuted",
    "C45_in_range"
   ],
   "note": "C45_threshold_refuted: any threshold congruent modulo 2^32 is accepted; C45_in_range is the guarded converse."
  },
  {
   "property": "C46",
   "status": "proved",
   "theorems": [
    "C46_complete"
   ],
   "note": "Every block must have num_validators keys and at least maximum_validators; the dummy block must have a hash when dummies are needed."
  },
  {
   "property": "C47",
   "status": "proved",
   "theorems": [
    "C47_same_inputs",
    "C47_insert",
    "C47_remove",
    "C47_padding_key"
   ],
   "note": "C47_insert and C47_remove for arbitrary assignments, C47_same_inputs and C47_padding_key for the prover's assignment."
  },
  {
   "property": "C48",
   "status": "proved",
   "theorems": [
    "C48_panics",
    "C48_updates"
   ],
   "note": "If a helper is used it must return a proof; an error of the helper comes before the panic for too many transitions."
  },
  {
   "property": "C49",
   "status": "proved",
   "theorems": [
    "C49_sign_then_verify",
    "C49_sign_value",
    "C49_sign_true_writes",
    "C49_sign_false_writes_nothing",
    "C49_verify_selected",
    "C49_rejected_flags",
    "C49_cross_flags",
    "C49_pop_round_trip"
   ],
   "note": "Hash-to-curve functions are parameters (three arbitrary functions)."
  },
  {
   "property": "C50",
   "status": "proved",
   "theorems": [
    "C50_verify_signature",
    "C50_verify_pop",
    "C50_batch_verify_signature",
    "C50_hashes_do_not_panic"
   ],
   "note": "C50_hashes_do_not_panic discharges the panic condition for the concrete hash-to-curve functions; for the composite ones, given that the CRH does not panic on the input at hand (C61 says exactly when it does)."
  },
  {
   "property": "C51",
   "status": "proved",
   "theorems": [
    "C51_slots",
    "C51_complete",
    "C51_sound",
    "C51_rejected_flags",
    "C51_empty_accepted",
    "C51_surplus_ignored"
   ],
   "note": "Random bytes are arguments; the probability statement is a count of accepting draws (C51_sound)."
  },
  {
   "property": "C52",
   "status": "proved",
   "theorems": [
    "C52_subtract",
    "C52_aggregate",
    "C52_add_then_subtract",
    "C52_duplicates_refuted"
   ],
   "note": "The claim for lists with duplicates is refuted by C52_duplicates_refuted."
  },
  {
   "property": "C53",
   "status": "proved",
   "theorems": [
    "C53_read_pubkeys",
    "C53_round_trip",
    "C53_reads_only_the_keys",
    "C53_never_panics",
    "C53_serialized_length",
    "C53_block_round_trip"
   ],
   "note": "Memory behind the pointer is a byte list at least as long as the slice; usize is 64 bits and the multiplication wraps (release profile)."
  },
  {
   "property": "C54",
   "status": "proved",
   "theorems": [
    "C54_encode_cip22",
    "C54_encode_plain",
    "C54_reported_length",
    "C54_length_refuted",
    "C54_null_entropy",
    "C54_cip22_binding",
    "C54_plain_binding"
   ],
   "note": "C54_length_refuted: the reported length wraps. Keys are already decoded objects at this entry point."
  },
  {
   "property": "C55",
   "status": "proved",
   "theorems": [
    "C55_compress_signature",
    "C55_compress_pubkey",
    "C55_signature_agrees",
    "C55_pubkey_agrees",
    "C55_no_curve_check"
   ],
   "note": "Exact decision for all byte strings. Panics cross the language boundary."
  },
  {
   "property": "C56",
   "status": "proved",
   "theorems": [
    "C56_any_key",
    "C56_pinned_key",
    "C56_forgery_refuted",
    "C56_hash_any_point"
   ],
   "note": "Hash points (C56_hash_any_point), keys (C56_any_key, C56_pinned_key) and the whole circuit (C56_forgery_refuted). Relies on the reading of arkworks recorded in DESIGN.md."
  },
  {
   "property": "C57",
   "status": "proved",
   "theorems": [
    "C57_direct_with_attempt",
    "C57_direct",
    "C57_composite",
    "C57_composite_cip22",
    "C57_total",
    "C57_affine_form",
    "C57_affine_layout",
    "C57_projective_layout",
    "C57_projective_not_canonical",
    "C57_projective_form"
   ],
   "note": "Curve group, square roots and the representation of its elements are parameters with laws; compat feature on, as in the crate. C57_total is conditional on the CRH not panicking on the input at hand (C61)."
  },
  {
   "property": "C58",
   "status": "proved",
   "theorems": [
    "C58_verify_accepts",
    "C58_verify_total",
    "C58_ignored_fields",
    "C58_same_encodings",
    "C58_inputs_binding"
   ],
   "note": "Groth16 and its decoders are oracles; BLAKE2s is concrete."
  },
  {
   "property": "C59",
   "status": "proved",
   "theorems": [
    "C59_statement",
    "C59_binding",
    "C59_complete",
    "C59_instance",
    "C59_panics_only",
    "C59_unpadded",
    "C59_mismatch",
    "C59_prover_mismatch"
   ],
   "note": "C59_statement, C59_binding, C59_complete: the helper circuit states exactly the expansions; C59_instance, C59_unpadded, C59_panics_only: what generate_hash_helper builds; C59_mismatch, C59_prover_mismatch: finding, the inputs checked by the epoch circuit can only be those of a true helper statement if each digest d and some 8-byte prefix followed by d expand to the same bytes. Groth16 itself is not modelled."
  },
  {
   "property": "C60",
   "status": "proved",
   "theorems": [
    "C60_public_key",
    "C60_aggregate_value",
    "C60_aggregate_verifies",
    "C60_private_key_bytes",
    "C60_signature_bytes",
    "C60_public_key_bytes",
    "C60_deserialize_private_key",
    "C60_deserialize_signature",
    "C60_deserialize_public_key",
    "C60_cached_deserialize",
    "C60_crh",
    "C60_crh_determines_cip22",
    "C60_first_step",
    "C60_first_step_is_the_candidate",
    "C60_message_conversion"
   ],
   "note": "C60_*: pointers stand for what they point to; c_int lengths are taken as non-negative. Finding (C60_message_conversion): lending a message with empty data or empty extra data to C panics (utils.rs line 97 takes the address of element 0)."
  },
  {
   "property": "C61",
   "status": "proved",
   "theorems": [
    "C61_value",
    "C61_limit",
    "C61_digest_bytes",
    "C61_scalars_injective",
    "C61_collision",
    "C61_collision_odd_order",
    "C61_empty_message",
    "C61_setup",
    "C61_bases",
    "C61_setup_deterministic",
    "C61_point_from_x",
    "C61_hash_limits",
    "C61_ffi_hash_limits",
    "C61_ffi_signature_limits",
    "C61_block_limit",
    "C61_block_limit_plain",
    "C61_circuit_parameter"
   ],
   "note": "bowe_hopwood.rs, the Edwards curve and ChaCha are modelled from memory of the pinned dependencies (not in /repo); the model reproduces the repository vector of test_crh_random (checked outside the build, 8 minutes). The group law of the complete twisted Edwards curve, including associativity, is proved, not assumed."
  },
  {
   "property": "C62",
   "status": "proved",
   "theorems": [
    "C62_verified",
    "C62_distance",
    "C62_first_signers",
    "C62_one_transition"
   ],
   "note": "C62_verified composes the C interface (C58), the encodings (C19-C21, C44) and the circuit (C42-C44). Soundness of Groth16 is the hypothesis sound_for (every accepted input list is satisfiable); it is not proved. Circuits with a hash-helper proof are excluded (C39 shows they do not have the property). The header's threshold is the circuit's own value, equal to the block's modulo 2^32 (C45). Entropy links hold only if the first header has entropy (C43). C61_circuit_parameter gives the instance of the Pedersen parameter."
  },
  {
   "property": "C63",
   "status": "proved",
   "theorems": [
    "C63_same_constraints",
    "C63_same_statement",
    "C63_layout",
    "C63_more_epochs",
    "C63_setup",
    "C63_threshold",
    "C63_helper_fits",
    "C63_certifies",
    "C63_pedersen_by_length"
   ],
   "note": "same: equality of constraint programs up to witness closures; same_layout: equal sequences of allocations and constraints in all passes. Both are about the model's constraints (library gadgets are single relations), not R1CS matrices. The verification gadget of the helper proof contributes no constraint to the model because its result is dropped (C39); that setup and prover build in the same key is stated separately in C63_setup. The positive claim for the helper circuit fails when dummies are used: C63_helper_fits. Key generation is a function parameter; in C63_certifies its soundness is a hypothesis."
  },
  {
   "property": "C64",
   "status": "proved",
   "theorems": [
    "C64_safe",
    "C64_release",
    "C64_accounts",
    "C64_no_leak",
    "C64_delivers",
    "C64_unchanged",
    "C64_null",
    "C64_failed",
    "C64_entry_points",
    "C64_byte_calls",
    "C64_length",
    "C64_life_cycle",
    "C64_double_release",
    "C64_wrong_destructor",
    "C64_wrong_length",
    "C64_long_buffer"
   ],
   "note": "Heap with layouts; the allocator is any function returning fresh non-null addresses. C64_long_buffer shows the 2^31 bound is needed: the reported c_int length no longer frees the buffer. C64_double_release, C64_wrong_destructor and C64_wrong_length show the protocol cannot be relaxed."
  },
  {
   "property": "C65",
   "status": "proved",
   "theorems": [
    "C65_alternatives",
    "C65_stops",
    "C65_completes"
   ],
   "note": "Exact outcome of the prover's synthesis for any chain given to prove: C65_alternatives (each update goes on or stops, in one way), C65_stops (the first stopping update decides between Fails and Panics), C65_completes (otherwise an assignment exists, satisfying iff the chain is acceptable, with the native public inputs)."
  },
  {
   "property": "C66",
   "status": "proved",
   "theorems": [
    "C66_g1_chord",
    "C66_g2_chord",
    "C66_g1_group",
    "C66_g2_group",
    "C66_g1_sum",
    "C66_g2_sum"
   ],
   "note": "Over the concrete fields, no assumption. C66_g1_chord/C66_g2_chord characterise the sum; C66_g1_group/C66_g2_group are the group laws (associativity via ideal classes of the coordinate ring, mathcomp); C66_g1_sum/C66_g2_sum for lists."
  },
  {
   "property": "C67",
   "status": "proved",
   "theorems": [
    "C67_curves",
    "C67_native",
    "C67_accepted",
    "C67_consecutive"
   ],
   "note": "Composes C46, C53, C58, C62 and C63 on the point groups of C66, with no law of the groups assumed. The pairing enters as a map that is additive at the generator, the proof system through completeness or soundness."
  },
  {
   "property": "C68",
   "status": "proved",
   "theorems": [
    "C68_g1_points",
    "C68_g1_subgroup",
    "C68_g1_generates",
    "C68_g1_cofactor",
    "C68_g1_curve_group",
    "C68_hash_to_g1",
    "C68_signature_accepts"
   ],
   "note": "C68_g1_points counts the points: by character sums (CubicCount) the number is p + 1 - a with a^2 + 3 d^2 = 4 p, which leaves six candidates (NormForm), and r divides it because a checked certificate shows that r kills the generator. C68_g1_subgroup, C68_g1_generates, C68_g1_cofactor describe the subgroup; C68_g1_curve_group discharges the hypothesis of C26 for the real curve; C68_hash_to_g1 and C68_signature_accepts are the consequences for hashing and reading signatures."
  },
  {
   "property": "C69",
   "status": "proved",
   "theorems": [
    "C69_g2_points",
    "C69_g2_subgroup",
    "C69_g2_generates",
    "C69_g2_cofactor",
    "C69_g2_curve_group",
    "C69_hash_to_g2",
    "C69_public_key_accepts"
   ],
   "note": "C69_g2_points counts the points: p^2 + 1 - a with a^2 + 3 d^2 = 4 p^2 (CubicCount over F_p^2), twelve candidates (NormForm); r divides the number (x times the generator is its image under (x, y) -> (k^2 conj x, k^3 conj y), by a checked certificate) and 2 does not (no point has y = 0). C69_g2_subgroup, C69_g2_generates, C69_g2_cofactor describe G2; C69_g2_curve_group discharges the hypothesis of C26; C69_hash_to_g2 and C69_public_key_accepts are the consequences."
  },
  {
   "property": "C70",
   "status": "proved",
   "theorems": [
    "C70_public_key",
    "C70_sign",
    "C70_sign_pop",
    "C70_verify",
    "C70_verify_pop",
    "C70_verify_answers",
    "C70_round_trip",
    "C70_round_trip_pop",
    "C70_unique_signature",
    "C70_unique_key",
    "C70_aggregate",
    "C70_aggregate_repeated_key_rejected"
   ],
   "note": "Composes the models of reading, signing, verifying, aggregating and writing on the subgroups of order r of the two curves, with C68 and C69 in place of any assumption about the groups; the pairing enters only through bilinearity on G1 x G2 and its value at the generators, the square roots through being square roots, the composite hash through returning bytes. C70_aggregate_repeated_key_rejected shows what the cache's set semantics does to repeated keys."
  },
  {
   "property": "C71",
   "status": "proved",
   "theorems": [
    "C71_equation",
    "C71_exact",
    "C71_chain",
    "C71_verified",
    "C71_consecutive"
   ],
   "note": "C63 on the curves, with the pairing equation solved by C68 and C69: the pairing enters only through additivity and its value at the generators, the proof system through knowledge-free soundness, the hashes through explicit collisions. The circuit does not check that the keys of intermediate committees lie in G2, so the statement for longer chains asks for it."
  },
  {
   "property": "C72",
   "status": "proved",
   "theorems": [
    "C72_batch_verify",
    "C72_batch_complete",
    "C72_batch_unordered",
    "C72_batch_screens_only",
    "C72_strict_slots",
    "C72_strict_complete",
    "C72_strict_sound"
   ],
   "note": "C50, C51 and C70 composed on the real groups. The pairing enters through bilinearity and non-degeneracy; the random bytes are an argument, so the strict statement counts draws."
  },
  {
   "property": "C73",
   "status": "proved",
   "theorems": [
    "C73_range",
    "C73_uniform",
    "C73_every_key",
    "C73_running",
    "C73_bytes",
    "C73_usable",
    "C73_nonzero_refuted"
   ],
   "note": "The random number generator is an argument (a list of draws). ark-ff's Distribution for Fp256 (four limbs, top three bits masked, rejection, Montgomery form) is modelled from its source as known, like the field sampling of C61."
  },
  {
   "property": "C74",
   "status": "proved",
   "theorems": [
    "C74_every_answer",
    "C74_amid_other_threads",
    "C74_subtract_amid_other_threads",
    "C74_answered",
    "C74_aggregate_answered",
    "C74_same_keys_same_sum",
    "C74_same_keys_same_difference",
    "C74_signers",
    "C74_subtract_again"
   ],
   "note": "Keys are read from bytes before each request, as the callers of the C interface do; keys kept as pointers with other projective representations are C13/C52. The square root and the hash of coordinates are arguments."
  },
  {
   "property": "C75",
   "status": "proved",
   "theorems": [
    "C75_rogue_exists",
    "C75_aggregate_of_all_refuted",
    "C75_possession",
    "C75_possession_same_message_refuted"
   ],
   "note": "Two theorems are refutations of what a caller might assume (suffix _refuted); the equivalence for possession is exact. That nobody can prove possession of a sum of others' keys is a hardness assumption and is not stated. Same model as C70 and C74."
  },
  {
   "property": "C76",
   "status": "proved",
   "theorems": [
    "C76_uniform",
    "C76_uniform_cip22",
    "C76_counter_independent",
    "C76_counter_independent_cip22",
    "C76_failure",
    "C76_failure_cip22"
   ],
   "note": "Counting statements: what a random oracle would give. That BLAKE2Xs behaves like one is not stated. Uses the order of the curve (C68); all points of order 2 and 3 are killed by the cofactor, which makes the distribution exact."
  },
  {
   "property": "C77",
   "status": "proved",
   "theorems": [
    "C77_assignments",
    "C77_signatures_exist",
    "C77_same_assignments",
    "C77_contains",
    "C77_known",
    "C77_known_consecutive"
   ],
   "note": "Knowledge form of C44, C63 and C71: the extractor of the proof system is a parameter (extractable), as soundness was before. contains_g1 and contains_header say that the coordinates and numbers are among the assigned values; a projective variable is one cell with three coordinates. Collisions of the boundary hash remain an alternative, as in C62."
  },
  {
   "property": "C78",
   "status": "proved",
   "theorems": [
    "C78_digests",
    "C78_message",
    "C78_content",
    "C78_possession",
    "C78_flags",
    "C78_purpose",
    "C78_epoch_block",
    "C78_epoch_block_plain"
   ],
   "note": "Composes C70, C25, C61 and C19. Collisions exist by counting, so the theorems do not say that none exists: they give the colliding inputs as functions of the two requests. The example has degenerate Pedersen parameters, where two blocks do share a signature and the relation is exhibited; no example of a clash in BLAKE2Xs can be given."
  },
  {
   "property": "C79",
   "status": "proved",
   "theorems": [
    "C79_session",
    "C79_progress",
    "C79_no_return",
    "C79_unseen"
   ],
   "note": "By induction over the calls from C77. Soundness of the proof system enters as an extractor, as there. The example is a session of two calls on the real curves with a proof system that accepts exactly two statements."
  },
  {
   "property": "C80",
   "status": "proved",
   "theorems": [
    "C80_keys_add",
    "C80_aggregate",
    "C80_all_keys",
    "C80_zero_signer",
    "C80_zero_key",
    "C80_hash_add",
    "C80_hash_add_nothing",
    "C80_hash_add_refuted",
    "C80_multiple",
    "C80_cofactor",
    "C80_summands"
   ],
   "note": "The formulas (Renes, Costello and Batina, algorithms 1 and 3, for a = 0) belong to the dependency and are modelled from its published description. Points that the cofactor sends to zero are left out of the multiplication theorem; C80_hash_add_refuted shows that exceptions exist on that curve."
  },
  {
   "property": "C81",
   "status": "proved",
   "theorems": [
    "C81_forgery",
    "C81_aggregate_forgery",
    "C81_aggregate_served",
    "C81_one_answer",
    "C81_signing_simulated",
    "C81_possession_simulated",
    "C81_factors"
   ],
   "note": "The algebraic core of the reduction. The probabilistic part of the argument (programming the hash as a random function, guessing the forged message) is not modelled; that the problem is hard is an assumption about the curves. A proof on the honest owner's own proof message says nothing (C75_possession_same_message_refuted), since its hash would then be a multiple of the generator instead. Batches of several messages are not covered."
  },
  {
   "property": "C82",
   "status": "proved",
   "theorems": [
    "C82_forged_proof"
   ],
   "note": "Uses the extraction hypothesis of C77 and projective witnesses with Z in {0, 1} (DESIGN 3.2). Blocks with consecutive indices only; validators whose key has an undetermined sign bit (C33) are excluded by hypothesis, a validator counted twice is not covered. The maximum in the assignment equals the block's only modulo 2^32 (C45)."
  },
  {
   "property": "C83",
   "status": "proved",
   "theorems": [
    "C83_independent",
    "C83_nothing_learned",
    "C83_collision"
   ],
   "note": "The hypothesis that the queries are answered independently holds for some hash function whenever their inputs differ (tables_answer); without CIP 22 two queries whose extra data followed by the message is the same string have the same input (C27, JointExamples.same_input)."
  },
  {
   "property": "C84",
   "status": "proved",
   "theorems": [
    "C84_screening",
    "C84_unsigned_message"
   ],
   "note": "Algebra of the reduction as in C81; that the factors can be chosen without being noticed is C76, C81_factors and C83. Items of others' keys on a message that the honest owner signed need a known private key: from a proof of possession on a multiple of Y nothing is known about their multiple of the generator."
  },
  {
   "property": "C85",
   "status": "proved",
   "theorems": [
    "C85_no_order_sixteen",
    "C85_order_eight",
    "C85_cofactor",
    "C85_same_x",
    "C85_uncleared",
    "C85_digest",
    "C85_collision",
    "C85_setup"
   ],
   "note": "The odd order is not computed: it is the odd part of the number of points (Lagrange's theorem through mathcomp). The multiplication by the cofactor happens in the dependency that samples the bases, modelled in PedersenModel."
  },
  {
   "property": "C86",
   "status": "proved",
   "theorems": [
    "C86_strict",
    "C86_batch",
    "C86_strict_limit",
    "C86_batch_limit",
    "C86_direct",
    "C86_order",
    "C86_order_panics_refuted"
   ],
   "note": "The conversion of the C messages, which panics on empty data (C60), comes before the modelled calls. What a panic does in a C caller (abort or unwinding into foreign frames) is outside the model."
  },
  {
   "property": "C87",
   "status": "proved",
   "theorems": [
    "C87_private_keys",
    "C87_signatures",
    "C87_infinite_signatures",
    "C87_one_string_per_signature",
    "C87_public_keys",
    "C87_infinite_public_keys",
    "C87_one_string_per_key",
    "C87_one_accepted",
    "C87_neutral_accepted"
   ],
   "note": "The reading of points is that of the dependency ark-ec, modelled in CodecModel, with the subgroup tests (multiplication by r) of OrderSpec and TwistSpec. The strings of infinity were already refuted to be canonical in C30; here they are counted."
  },
  {
   "property": "C88",
   "status": "proved",
   "theorems": [
    "C88_possession",
    "C88_signature",
    "C88_aggregate",
    "C88_subtract"
   ],
   "note": "A finding rather than a guarantee: callers have to refuse the point at infinity themselves. Setting as in C70 and C74: the pairing is a parameter with its laws."
  }
 ]
}