{"id": "C01", "title": "Signing then verifying succeeds", "statement": "For every private key, message, extra data and hash-to-G1 implementation, if PrivateKey::sign returns Ok(sig) then key.to_public().verify(message, extra, sig, same hasher) returns Ok(()). sign returns Err exactly when the hash-to-curve step returns Err, with the same error, and never panics on its own account. The same holds for sign_pop/verify_pop.", "quantifier": "all private keys, messages, extra-data strings, hashers (including hashers that fail)", "why_tests_cant": "Keys and messages are unbounded; a test samples a handful of random keys and one hasher.", "anchors": ["crates/bls-crypto/src/bls/secret.rs: PrivateKey::sign, sign_pop, sign_message, sign_raw, to_public", "crates/bls-crypto/src/bls/public.rs: PublicKey::verify, verify_pop, verify_sig"]}
{"id": "C02", "title": "Verification accepts exactly one signature point", "statement": "For every public key in the prime-order subgroup and every message whose hash succeeds, PublicKey::verify returns Ok for exactly one signature point in the subgroup: the hash point multiplied by the discrete logarithm of the key. Every other subgroup point yields Err(VerificationFailed); a hashing failure yields that hashing error and never Ok.", "quantifier": "all subgroup public keys, subgroup signature points, messages, extra data, hashers", "why_tests_cant": "Rejection of every other point is a universal negative; tests try one or two wrong signatures.", "anchors": ["crates/bls-crypto/src/bls/public.rs: verify, verify_sig", "crates/bls-crypto/src/bls/signature.rs: Signature"]}
{"id": "C03", "title": "Proof-of-possession and message signatures live in different domains", "statement": "sign/verify query the hash function only under the domain ULforxof and sign_pop/verify_pop only under ULforpop with empty extra data; the BLAKE2 parameter blocks that reach the compression function from the two entry points always differ. A signature made by sign is accepted by verify_pop for some message only if the two hash points multiplied by the key agree (for a non-zero key: only if the two domain-separated hashes collide).", "quantifier": "all keys, all pairs of (message, extra) and POP messages, all hashers", "why_tests_cant": "Absence of cross-protocol acceptance is a universal statement over pairs of messages.", "anchors": ["crates/bls-crypto/src/lib.rs: SIG_DOMAIN, POP_DOMAIN", "crates/bls-crypto/src/bls/secret.rs: sign, sign_pop", "crates/bls-crypto/src/bls/public.rs: verify, verify_pop", "crates/bls-crypto/src/hashers/direct.rs: crh, xof"]}
{"id": "C04", "title": "Same-message aggregation", "statement": "For every list of private keys, the aggregate of their signatures on one message verifies under the aggregate of their public keys; the aggregate is independent of the order and of the grouping (aggregating sub-aggregates gives the same result), and the aggregate of the empty list is the identity. Conversely aggregate verification succeeds iff the aggregate signature equals the sum of the individual valid signatures.", "quantifier": "all lists (any length, any duplicates) of keys, any permutation or partition of the list, all messages", "why_tests_cant": "Lists, permutations and partitions are unbounded.", "anchors": ["crates/bls-crypto/src/bls/public.rs: PublicKey::aggregate", "crates/bls-crypto/src/bls/signature.rs: Signature::aggregate"]}
{"id": "C05", "title": "Multi-message batch_verify decides the product equation and checks lengths first", "statement": "Signature::batch_verify with k public keys and m messages returns Err(UnevenNumKeysMessages) when k differs from m, before any message is hashed; otherwise it returns the first hashing error in message order if any message fails to hash; otherwise Ok iff the signature is the sum of the per-message signatures of the paired keys. Reordering the (key, message) pairs never changes acceptance.", "quantifier": "all lists of keys and of (message, extra) pairs of any lengths, all signatures, all hashers", "why_tests_cant": "Needs all lengths, all positions of the failing message and all permutations.", "anchors": ["crates/bls-crypto/src/bls/signature.rs: batch_verify, batch_verify_hashes"]}
{"id": "C06", "title": "Aggregate acceptance does not imply the components are valid", "statement": "There are individually invalid signatures whose aggregate is accepted by batch_verify (errors may cancel); acceptance of the aggregate says only that the sum is right. If all but one component are valid then acceptance of the aggregate does imply the remaining component is valid.", "quantifier": "all lists of keys, messages and component signatures", "why_tests_cant": "The exact boundary between what screening does and does not establish is a quantified statement.", "anchors": ["crates/bls-crypto/src/bls/signature.rs: aggregate, batch_verify, batch_verify_hashes"]}
{"id": "C07", "title": "Multi-scalar combination", "statement": "PublicKey::batch and Signature::batch return None iff the number of exponents differs from the number of points, and otherwise return the sum of exponent_i times point_i; in particular they are linear, agree with aggregate when every exponent is 1, and a list of valid signatures combined with any exponents verifies under the keys combined with the same exponents.", "quantifier": "all lists of exponents and points of any lengths", "why_tests_cant": "Universal over lists and scalars.", "anchors": ["crates/bls-crypto/src/bls/public.rs: PublicKey::batch", "crates/bls-crypto/src/bls/signature.rs: Signature::batch"]}
{"id": "C08", "title": "Randomised batch verification never rejects a valid batch", "statement": "If every entry pushed with Batch::add is individually valid for the batch's message and extra data then Batch::verify returns Ok for every value of the random generator's output. An empty batch verifies whenever its message hashes.", "quantifier": "all batch sizes, entries, messages and all outcomes of the random generator", "why_tests_cant": "Tests use one draw from the RNG; the claim covers all draws.", "anchors": ["crates/bls-crypto/src/bls/batch.rs: Batch::new, add, verify"]}
{"id": "C09", "title": "Randomised batch verification soundness bound", "statement": "If at least one entry of a batch of n entries is individually invalid then, fixing the random bytes of all other entries, at most one value of that entry's random exponent makes Batch::verify return Ok; hence at most a fraction 2^-(8k) of the random outcomes accept, where k is the number of bytes per exponent.", "quantifier": "all batches with at least one invalid entry, all positions of the invalid entry, all random outcomes", "why_tests_cant": "A probability of 2^-128 cannot be measured by sampling.", "anchors": ["crates/bls-crypto/src/bls/batch.rs: Batch::verify, byte_count_from_target_batch_size"]}
{"id": "C10", "title": "Batch exponent size", "statement": "The exponents used for n entries have at least min(128 + ceil(log2 n), 248 rounded down to whole bytes) bits, never more than 31 bytes; as a consequence turning the random bytes into a scalar never fails, so the unwrap calls in Batch::verify never panic, and distinct byte strings give distinct scalars.", "quantifier": "all batch sizes representable in a usize, all random byte strings", "why_tests_cant": "All 2^64 sizes and all byte strings.", "anchors": ["crates/bls-crypto/src/bls/batch.rs: byte_count_from_target_batch_size, SECURITY_BOUND, Batch::verify"]}
{"id": "C11", "title": "verify_each reports exactly the first failure", "statement": "Batch::verify_each returns Ok iff every entry verifies individually and otherwise the error of the first failing entry in insertion order. When it returns Ok, Batch::verify returns Ok for all random outcomes.", "quantifier": "all batches and positions of failing entries", "why_tests_cant": "Universal over lists and failure positions.", "anchors": ["crates/bls-crypto/src/bls/batch.rs: verify_each"]}
{"id": "C12", "title": "Key-cache aggregation invariant over any history", "statement": "After any sequence of PublicKeyCache::aggregate, deserialize and clear_cache calls, the point returned by aggregate(keys) is the sum of the distinct stored representations in keys, independent of everything that happened before the call; the incremental add/subtract path never drifts from a from-scratch sum.", "quantifier": "all finite operation histories on a cache, all key lists", "why_tests_cant": "Drift appears only after particular histories; the space of histories is infinite.", "anchors": ["crates/bls-crypto/src/bls/cache.rs: PublicKeyCache::aggregate, clear_cache, new"]}
{"id": "C13", "title": "Cached aggregate versus plain aggregate", "statement": "PublicKeyCache::aggregate(keys) equals PublicKey::aggregate(keys) for every list in which no key representation is repeated; with a repeated key the two differ (the cache counts it once), and two different projective representations of one point are counted twice by the cache.", "quantifier": "all key lists", "why_tests_cant": "The equality claim ranges over all lists; the failure needs a specially chosen list no test uses.", "anchors": ["crates/bls-crypto/src/bls/cache.rs: aggregate, WrappedPublicKey eq/hash", "crates/bls-crypto/src/bls/public.rs: aggregate"]}
{"id": "C14", "title": "Cached deserialisation is transparent", "statement": "After any history of cache operations, PublicKeyCache::deserialize(bytes) returns the same result (key or error) as PublicKey::deserialize(bytes) on a fresh process; failures are never cached.", "quantifier": "all operation histories and all byte strings", "why_tests_cant": "Universal over histories; a stale or wrong entry needs a particular eviction pattern.", "anchors": ["crates/bls-crypto/src/bls/cache.rs: deserialize", "crates/bls-crypto/src/bls/public.rs: deserialize"]}
{"id": "C15", "title": "Decoded-key cache capacity and eviction", "statement": "At every point of every history the decoded-key cache holds at most 512 entries, at most one per byte string, and the entries held are exactly the most recently used successfully decoded byte strings since the last clear.", "quantifier": "all operation histories", "why_tests_cant": "Capacity violations need long histories.", "anchors": ["crates/bls-crypto/src/bls/cache.rs: PublicKeyCache::new, deserialize, clear_cache"]}
{"id": "C16", "title": "Shared cache under concurrency", "statement": "Under every interleaving of threads calling the cached FFI entry points (each holding the global lock for one call), every call returns the value it would return if it were the only call ever made.", "quantifier": "all numbers of threads, all per-thread call sequences, all interleavings at lock granularity", "why_tests_cant": "Schedules cannot be enumerated by tests.", "anchors": ["crates/bls-snark-sys/src/cache.rs", "crates/bls-snark-sys/src/signatures.rs: aggregate_public_keys, aggregate_public_keys_subtract", "crates/bls-snark-sys/src/serialization.rs: deserialize_public_key_cached"]}
{"id": "C17", "title": "Bit/byte conversion utilities round-trip", "statement": "bytes_le_to_bits_le/be followed by bits_le/be_to_bytes_le is the identity on byte strings; the reverse composition restores the bit list for every list (up to zero padding to whole bytes); lengths are ceil(n/8) and min(n, 8*len); the result represents the same number. No intermediate byte addition overflows.", "quantifier": "all bit lists and byte lists of any length", "why_tests_cant": "Universal over lengths including non-multiples of 8.", "anchors": ["crates/bls-gadgets/src/utils.rs: bits_be_to_bytes_le, bits_le_to_bytes_le, bytes_le_to_bits_be, bytes_le_to_bits_le"]}
{"id": "C18", "title": "Public-key bit encoding is injective", "statement": "encode_public_key yields exactly 755 bits for every key and two distinct points of the curve never have the same encoding; the x coordinate is recoverable from the bits and the last bit selects the y coordinate.", "quantifier": "all pairs of points on the twist curve (finite points)", "why_tests_cant": "The number of keys is astronomically large.", "anchors": ["crates/epoch-snark/src/epoch_block.rs: EpochBlock", "crates/epoch-snark/src/encoding.rs: encode_public_key"]}
{"id": "C19", "title": "Epoch encodings are unambiguous", "statement": "For a fixed number of validators and 16-byte entropies, encode_to_bits_cip22, encode_inner_to_bits_cip22, encode_to_bits and encode_to_bits_last_epoch_with_aggregated_pk_cip22 determine index, round, threshold, entropies (up to the None/zero identification) and the list of keys; two blocks that differ in one of these never encode equally. The lengths are the fixed functions of the parameters.", "quantifier": "all pairs of epoch blocks with equal parameters", "why_tests_cant": "Pairs of blocks are unbounded.", "anchors": ["crates/epoch-snark/src/epoch_block.rs: encode_to_bits, encode_to_bits_cip22, encode_inner_to_bits_cip22, encode_to_bits_last_epoch_with_aggregated_pk_cip22", "crates/epoch-snark/src/encoding.rs: encode_u8, encode_u16, encode_u32"]}
{"id": "C20", "title": "Epoch encodings: what is identified", "statement": "Absent entropy and all-zero 16-byte entropy encode identically; a block with fewer keys than maximum_validators and the block obtained by appending generator keys encode identically as first epoch and as signed message, but their last-epoch-with-aggregated-key encodings differ whenever the padding changes the aggregate; entropy shorter than 16 bytes shortens the encoding so blocks with different entropy lengths can collide.", "quantifier": "all epoch blocks", "why_tests_cant": "Characterises all collisions rather than one example.", "anchors": ["crates/epoch-snark/src/epoch_block.rs: encode_entropy_cip22, padding_pk, encode_to_bits_cip22, encode_to_bits_last_epoch_with_aggregated_pk_cip22"]}
{"id": "C21", "title": "First/last epoch public inputs", "statement": "The public inputs computed by verify for (first, last) are a function of the two 256-bit digests only; two pairs of epochs with different digests give different public-input vectors (packing 512 bits into field elements is injective and never wraps the modulus).", "quantifier": "all pairs of bit strings of the digest length", "why_tests_cant": "2^512 digests.", "anchors": ["crates/epoch-snark/src/api/verifier.rs: verify", "crates/epoch-snark/src/epoch_block.rs: hash_first_last_epoch_block, hash_to_bits", "crates/epoch-snark/src/gadgets/mod.rs: pack"]}
{"id": "C22", "title": "XOF output length and domain bound", "statement": "DirectHasher::xof returns exactly the requested number of bytes for every requested length (below 2^37) and message when the domain has at most 8 bytes, and Err(DomainTooLarge) otherwise; block i of the output depends only on (message, domain, i, requested length).", "quantifier": "all messages, domains and output lengths", "why_tests_cant": "Universal over lengths, including multiples of 32 and lengths above 65535.", "anchors": ["crates/bls-crypto/src/hashers/direct.rs: xof, crh, xof_digest_length_to_node_offset"]}
{"id": "C23", "title": "BLAKE2Xs parameter blocks are collision-free per use", "statement": "For output lengths below 2^16 and block counters below 2^32, the 32-byte BLAKE2 parameter blocks of two (domain, counter, length, role) uses are equal only if the uses agree (domains compared after zero padding to 8 bytes); for lengths of 2^16 or more the length is truncated modulo 2^16 and distinct lengths do share parameter blocks.", "quantifier": "all counters, lengths and domains", "why_tests_cant": "All 2^48 combinations.", "anchors": ["crates/bls-crypto/src/hashers/direct.rs: xof_digest_length_to_node_offset, crh, xof"]}
{"id": "C24", "title": "Over-long domain in hash", "statement": "For a domain longer than 8 bytes the direct hasher's hash does not return the documented DomainTooLarge error but panics inside crh (parameter assertion), whereas the composite hasher returns DomainTooLarge for every input that its CRH accepts; for every domain of at most 8 bytes neither happens.", "quantifier": "all domains, messages and lengths", "why_tests_cant": "Universal over domains; the existing tests never exceed 8 bytes.", "anchors": ["crates/bls-crypto/src/hashers/direct.rs: crh, xof", "crates/bls-crypto/src/hashers/mod.rs: Hasher::hash", "crates/bls-crypto/src/hashers/composite.rs: crh, xof"]}
{"id": "C25", "title": "Try-and-increment returns the least successful counter", "statement": "hash_with_attempt returns Ok((point, c)) iff c < 255 is the least counter whose candidate bytes decode to a curve point with a non-zero cofactor multiple, point is that multiple, and no hasher call failed before; it returns Err(HashToCurveError) iff all 255 candidates fail, and a hasher error iff the hasher fails at some counter before any success. The result is a deterministic function of its arguments and the point is never the identity.", "quantifier": "all domains, messages, extra data, hashers and curve-decoding behaviours", "why_tests_cant": "The rare paths (many failed counters, exhaustion) have negligible probability under testing.", "anchors": ["crates/bls-crypto/src/hash_to_curve/try_and_increment.rs: hash_with_attempt", "crates/bls-crypto/src/hash_to_curve/try_and_increment_cip22.rs: hash_with_attempt_cip22"]}
{"id": "C26", "title": "Hash-to-curve output lies in the prime-order subgroup", "statement": "Every point returned by hash/hash_with_attempt and their CIP22 versions is a non-identity point of the subgroup of prime order, whichever candidate produced it.", "quantifier": "all inputs and hashers", "why_tests_cant": "Universal over inputs.", "anchors": ["crates/bls-crypto/src/hash_to_curve/try_and_increment.rs", "crates/bls-crypto/src/hash_to_curve/try_and_increment_cip22.rs", "crates/bls-crypto/src/hash_to_curve/mod.rs: from_random_bytes"]}
{"id": "C27", "title": "Message/extra-data separation", "statement": "The pre-CIP22 hash-to-curve feeds counter || extra || message to the hasher, so two different (message, extra) pairs with the same concatenation always hash to the same point and a signature for one verifies for the other; under CIP22 the message enters through a fixed-length digest and the byte string given to the XOF determines counter, extra data and message digest.", "quantifier": "all messages and extra data", "why_tests_cant": "Ambiguity of the framing is a universal statement over split points.", "anchors": ["crates/bls-crypto/src/hash_to_curve/try_and_increment.rs: hash_with_attempt", "crates/bls-crypto/src/hash_to_curve/try_and_increment_cip22.rs: hash_with_attempt_cip22"]}
{"id": "C28", "title": "Candidate bytes to curve point", "statement": "from_random_bytes returns a point iff the masked bytes are below the modulus and x^3+b is a square (or the bytes encode the identity), the point lies on the curve, has that x and the y selected by the sign flag; flipping only the sign flag gives the negated point. The flag codec YSignFlags round-trips for all flag values and all bytes and never rejects a byte.", "quantifier": "all byte strings of the candidate length", "why_tests_cant": "2^384 candidate strings.", "anchors": ["crates/bls-crypto/src/hash_to_curve/mod.rs: YSignFlags, from_random_bytes"]}
{"id": "C29", "title": "hash_length rounding", "statement": "hash_length(n) is the least multiple of 32 that is at least n for every n for which the f64 arithmetic is exact; in particular it never asks the XOF for fewer bytes than the candidate needs.", "quantifier": "all n below 2^53 (false from 2^53+1 on)", "why_tests_cant": "Floating-point rounding over a large range.", "anchors": ["crates/bls-crypto/src/hash_to_curve/mod.rs: hash_length"]}
{"id": "C30", "title": "Key and signature serialisation round-trip", "statement": "For every private key, public key and signature in the subgroup, deserialising its serialisation gives back the same value (compressed and uncompressed); sizes are fixed; and whatever deserialises successfully is a subgroup element whose canonical serialisation equals the input bytes, except that trailing bytes are ignored, infinity is accepted with any abscissa and an ordinate equal to its negation with either sign.", "quantifier": "all keys, signatures and byte strings", "why_tests_cant": "Universal over keys and over malformed byte strings.", "anchors": ["crates/bls-crypto/src/bls/public.rs: serialize, deserialize", "crates/bls-crypto/src/bls/signature.rs: serialize, deserialize", "crates/bls-crypto/src/bls/secret.rs"]}
{"id": "C31", "title": "is_eq_zero gadget decides zero", "statement": "For every field element and every satisfying assignment, the bit produced by the is_eq_zero gadget is 1 iff the element is zero, and for every element a satisfying assignment exists.", "quantifier": "all field elements, all witness assignments", "why_tests_cant": "A malicious prover chooses the witness; tests only run the honest prover.", "anchors": ["crates/bls-gadgets/src/y_to_bit.rs: FpUtils::is_eq_zero"]}
{"id": "C32", "title": "normalize gadget decides the sign of a field element except at the midpoint", "statement": "Every satisfying assignment of the normalize gadget gives the bit [el > (p-1)/2] for every el other than (p-1)/2; at el = (p-1)/2 both bit values are satisfiable. An honest assignment exists for every element.", "quantifier": "all field elements, all witness assignments", "why_tests_cant": "The only bad element is one in 2^377.", "anchors": ["crates/bls-gadgets/src/y_to_bit.rs: FpUtils::normalize"]}
{"id": "C33", "title": "y_to_bit gadgets agree with the native encoding", "statement": "For every affine point of the curve of G1 and every satisfying assignment, the bit computed in the circuit is the lexicographic sign of y. For every affine point of the twist the same holds, and the bit equals the last bit produced by encode_public_key, unless y.c1 = (p-1)/2; such points exist and both bit values satisfy the constraints.", "quantifier": "all points and witness assignments", "why_tests_cant": "Adversarial witnesses and 2^754 coordinates.", "anchors": ["crates/bls-gadgets/src/y_to_bit.rs: YToBitGadget", "crates/epoch-snark/src/encoding.rs: encode_public_key"]}
{"id": "C34", "title": "Bitmap gadget enforces the threshold", "statement": "The bitmap gadget is satisfiable iff the bitmap is non-empty and the number of positions with the flagged value is at most the given maximum, the maximum being below (p-1)/2. With fewer than 256 flagged positions the honest prover then produces a satisfying assignment; with 256 or more its u8 counter overflows, so no honest proof can be produced although the threshold may hold.", "quantifier": "all bitmaps of any length, all maxima", "why_tests_cant": "Needs all bitmap lengths; the overflow appears only at 256 or more.", "anchors": ["crates/bls-gadgets/src/bitmap.rs: Bitmap::enforce_maximum_occurrences_in_bitmap"]}
{"id": "C35", "title": "Aggregated-key gadget", "statement": "For every bitmap and key list of equal length, a satisfying assignment of enforce_aggregated_pubkeys exists iff no flagged key equals the padding key, and then the output is the sum of exactly the flagged keys. For unequal lengths synthesis panics.", "quantifier": "all bitmaps and key lists", "why_tests_cant": "Universal over subsets of validators.", "anchors": ["crates/bls-gadgets/src/bls.rs: enforce_aggregated_pubkeys, enforce_aggregated_all_pubkeys, enforce_bitmap"]}
{"id": "C36", "title": "BLS verification gadget", "statement": "The constraints of the verify / batch_verify gadgets are satisfiable iff the number of non-signers is within the bound, no signing key is the padding key, the (aggregated) keys are not the point at infinity, and the aggregate signature satisfies the same pairing equation as the native batch_verify_hashes on the flagged keys. Lists of unequal length are truncated where the native code reports an error.", "quantifier": "all bitmaps, keys, message hashes, signatures", "why_tests_cant": "Adversarial inputs over unbounded lists.", "anchors": ["crates/bls-gadgets/src/bls.rs: BlsVerifyGadget::verify, batch_verify, batch_verify_prepared, enforce_bls_equation"]}
{"id": "C37", "title": "Circuit and native hash inputs agree", "statement": "For every epoch block whose values are in range and that has maximum_validators keys, the message bits, extra-data bits and personalisation that the circuit feeds to its hash equal the bytes that the native CIP22 hash of the same block feeds to its hasher, including the BLAKE2Xs parameter block; for a block with fewer keys they differ, because only the native encoding pads.", "quantifier": "all epoch blocks and counters", "why_tests_cant": "Universal over blocks; a mismatch makes every proof for some block impossible.", "anchors": ["crates/epoch-snark/src/gadgets/epoch_data.rs: to_bits, hash_bits_to_g1", "crates/bls-gadgets/src/hash_to_group.rs: enforce_hash_to_group, blake2xs_params", "crates/epoch-snark/src/epoch_block.rs: encode_inner_to_bits_cip22, hash_to_g1_cip22", "crates/bls-crypto/src/hash_to_curve/try_and_increment_cip22.rs"]}
{"id": "C38", "title": "Hash-to-group gadget soundness", "statement": "With hash constraints enabled, every satisfying assignment of the hash-to-group gadget outputs the cofactor multiple of the curve point whose x coordinate and sign are the ones selected by the hash bits for the witnessed counter. The counter itself is not forced to be the least successful one.", "quantifier": "all messages, counters and witness assignments", "why_tests_cant": "Adversarial witnesses.", "anchors": ["crates/bls-gadgets/src/hash_to_group.rs: enforce_hash_to_group, hash_to_bits, hash_to_group, scale_by_cofactor_g1"]}
{"id": "C39", "title": "Without in-circuit hashing the XOF output is unconstrained", "statement": "When hash constraints are disabled (proof helper in use) the hash bits are free witnesses tied only to the public inputs of the helper proof; since the Boolean result of the helper-proof verification is discarded, a satisfying assignment exists for every choice of hash bits.", "quantifier": "all hash-bit choices and helper proofs", "why_tests_cant": "An existence claim about adversarial witnesses.", "anchors": ["crates/bls-gadgets/src/hash_to_group.rs: hash_to_bits", "crates/epoch-snark/src/gadgets/epoch_bits.rs: verify, verify_proof"]}
{"id": "C40", "title": "Multipack gadget", "statement": "The public inputs allocated by the circuit's pack gadget agree with the native pack on the same bits; a satisfying assignment determines the low bits of every public input.", "quantifier": "all bit lists and witness assignments", "why_tests_cant": "Universal over bit lists.", "anchors": ["crates/epoch-snark/src/gadgets/pack.rs: MultipackGadget::pack", "crates/epoch-snark/src/gadgets/mod.rs: pack"]}
{"id": "C41", "title": "Integer witnesses are bound only modulo their bit width", "statement": "fr_to_bits(x, n) yields the low n bits of the field element without constraining the rest, so an index or threshold witness is determined by its encoding only modulo 2^16 or 2^32; two witnesses differing by a multiple produce the same encoding. When the witness is below 2^n the encoding determines it.", "quantifier": "all field elements and widths", "why_tests_cant": "Adversarial field elements outside the honest range.", "anchors": ["crates/epoch-snark/src/gadgets/mod.rs: fr_to_bits", "crates/epoch-snark/src/gadgets/epoch_data.rs: to_bits", "crates/epoch-snark/src/gadgets/epochs.rs"]}
{"id": "C42", "title": "Index progression", "statement": "In every satisfying assignment each epoch with non-zero index follows the previous real epoch with index exactly one greater (as field elements); the last epoch is never a dummy; dummy epochs (index 0) change nothing in the carried state.", "quantifier": "all numbers of epochs and all witness assignments", "why_tests_cant": "Unbounded epoch counts and adversarial witnesses.", "anchors": ["crates/epoch-snark/src/gadgets/epoch_data.rs: enforce_next_epoch", "crates/epoch-snark/src/gadgets/epochs.rs: verify_intermediate_epochs"]}
{"id": "C43", "title": "Entropy chaining", "statement": "In every satisfying assignment, if entropy is enabled (witnessed first epoch's entropy non-zero) then every real epoch's parent entropy equals the epoch entropy of the previous real epoch. If the witnessed first epoch entropy is zero no link is enforced, and since that entropy is not part of the public inputs, the public inputs do not show whether links were enforced: every chain that is valid apart from its links is accepted.", "quantifier": "all epoch sequences and witness assignments", "why_tests_cant": "Adversarial witnesses over unbounded sequences.", "anchors": ["crates/epoch-snark/src/gadgets/single_update.rs: constrain", "crates/epoch-snark/src/gadgets/epochs.rs: verify_intermediate_epochs"]}
{"id": "C44", "title": "Header-chain soundness of the epoch circuit", "statement": "Every satisfying assignment of the epoch circuit (with in-circuit hashing) describes a chain from the first to the last epoch in which each real epoch's message is covered by an aggregate signature of at least n - max keys of the previous real validator set, where max is the previous epoch's witnessed threshold, none of them the padding key, and the batch pairing equation holds over exactly those (aggregated key, message hash) pairs plus fixed dummy pairs.", "quantifier": "all numbers of epochs, validators and all witness assignments", "why_tests_cant": "The soundness of the whole circuit against malicious provers.", "anchors": ["crates/epoch-snark/src/gadgets/epochs.rs: ValidatorSetUpdate::generate_constraints, enforce, verify_intermediate_epochs, verify_signature", "crates/epoch-snark/src/gadgets/single_update.rs", "crates/epoch-snark/src/gadgets/epoch_data.rs"]}
{"id": "C45", "title": "Public threshold does not bound the enforced threshold", "statement": "The number of non-signers tolerated by the circuit is the field witness, while the first-epoch digest binds only its low 32 bits; hence satisfying assignments exist whose public encoding shows a threshold smaller than the one enforced. If the witness is below 2^32 the enforced threshold is the encoded one.", "quantifier": "all first-epoch encodings and witnesses", "why_tests_cant": "Adversarial witness outside the honest range.", "anchors": ["crates/epoch-snark/src/gadgets/single_update.rs: constrain", "crates/epoch-snark/src/gadgets/epoch_data.rs: constrain, to_bits", "crates/epoch-snark/src/gadgets/epochs.rs"]}
{"id": "C46", "title": "Epoch-circuit completeness", "statement": "For every honest chain of epochs signed by a quorum (indices consecutive, thresholds met, counts below 256, no padding key among signers), the prover's assignment satisfies the circuit.", "quantifier": "all honest chains of any length", "why_tests_cant": "Only tiny chains are feasible in tests; the full test is ignored in CI.", "anchors": ["crates/epoch-snark/src/api/prover.rs: prove, to_update, to_epoch_data", "crates/epoch-snark/src/gadgets/epochs.rs"]}
{"id": "C47", "title": "Dummy-epoch padding", "statement": "Inserting dummy updates before the last epoch (and one generator per dummy into the aggregate signature) preserves satisfiability and public inputs for every number of dummies, provided the validator set preceding them contains no padding key; if it does contain one, the padded assignment built by prove is not satisfied.", "quantifier": "all chains and numbers of dummies", "why_tests_cant": "Universal over padding amounts.", "anchors": ["crates/epoch-snark/src/api/prover.rs: prove, to_dummy_update", "crates/epoch-snark/src/gadgets/epochs.rs"]}
{"id": "C48", "title": "prove argument panics", "statement": "prove panics exactly when the transition list is empty (and max_transitions is not zero) or longer than max_transitions (by overflow check, or by the capacity limit of the collected range in release builds); otherwise the number of updates handed to the circuit is exactly max_transitions, the last one is the last real transition and those between are dummies.", "quantifier": "all transition lists and maxima", "why_tests_cant": "Universal over lengths.", "anchors": ["crates/epoch-snark/src/api/prover.rs: prove"]}
{"id": "C49", "title": "FFI signing and verification flag matrix", "statement": "sign_message and verify_signature use the same hash-to-curve for equal flag pairs, so a signature produced through sign_message with flags (composite, cip22) is accepted by verify_signature with the same flags, and one made under other flags or for another message is accepted only if the two hash values coincide; with cip22 set and composite clear signing, verification and batch verification return false and write nothing; whenever signing returns false nothing is written.", "quantifier": "all keys, messages, extra data and flag pairs", "why_tests_cant": "All flag combinations times all keys/messages.", "anchors": ["crates/bls-snark-sys/src/signatures.rs: sign_message, verify_signature, hash_direct, hash_composite, hash_composite_cip22"]}
{"id": "C50", "title": "FFI verify return value versus out-parameter", "statement": "With supported flags verify_signature, verify_pop and batch_verify_signature return true whenever the call completes (also when the message does not hash to the curve) and report the verdict in the out parameter, which is true exactly if the signature equation holds; they panic only if the hash panics. The direct hash never does; the composite hashes do only if the Pedersen hash they start with does (C61: input longer than 19530 bytes). With cip22 set and composite clear they return false and leave the out parameter unwritten.", "quantifier": "all inputs", "why_tests_cant": "Universal over inputs, including hashing failures.", "anchors": ["crates/bls-snark-sys/src/signatures.rs: verify_signature, verify_pop, batch_verify_signature", "crates/bls-snark-sys/src/lib.rs: convert_result_to_bool"]}
{"id": "C51", "title": "FFI strict batch verification", "statement": "batch_verify_strict writes exactly one boolean per message; slot i is true iff the combined equation of the key/signature pairs of message i (truncated to the shorter array) holds for the random exponents drawn; the return value is the conjunction. Valid pairs always pass; a message with an invalid pair passes for at most a 2^-128 fraction of the draws. A message with no pairs is accepted, surplus keys or signatures are ignored silently, an empty array is accepted, and with unsupported flags every slot is false.", "quantifier": "all message arrays, array lengths and random outcomes", "why_tests_cant": "Universal over array lengths including mismatched and empty ones.", "anchors": ["crates/bls-snark-sys/src/signatures.rs: batch_verify_strict", "crates/bls-snark-sys/src/utils.rs: MessageFFI"]}
{"id": "C52", "title": "FFI aggregate subtraction", "statement": "For every cache history aggregate_public_keys_subtract(agg, keys) returns agg minus the sum of the distinct keys; subtracting a part of a duplicate-free list from its aggregate gives the aggregate of the rest. It does not for lists with duplicates: the aggregate of [a, a] minus [a] is zero.", "quantifier": "all key lists and cache histories", "why_tests_cant": "Universal over lists and histories.", "anchors": ["crates/bls-snark-sys/src/signatures.rs: aggregate_public_keys, aggregate_public_keys_subtract", "crates/bls-crypto/src/bls/cache.rs"]}
{"id": "C53", "title": "FFI key-array codec", "statement": "serialize_pubkeys then read_pubkeys is the identity for every list of valid keys; read_pubkeys on n claimed keys succeeds exactly if 96 n does not overflow usize and each of the n 96-byte chunks is the canonical encoding of a subgroup point, returns those points in order, looks at nothing after them and never panics; EpochBlockFFI conversion is the identity on the block it was made from.", "quantifier": "all key lists and counts", "why_tests_cant": "Universal over lists.", "anchors": ["crates/bls-snark-sys/src/snark/epoch_block.rs: read_pubkeys, serialize_pubkeys, TryFrom<&EpochBlockFFI>"]}
{"id": "C54", "title": "FFI epoch encoding entry points", "statement": "encode_epoch_block_to_bytes and its CIP22 version never fail or panic and return exactly the bytes of the Rust-side encoding of the block described by the arguments; null entropies behave as 16 zero bytes; equal outputs mean equal index, round, threshold, entropies and padded key list. The reported length equals the real one only below 2^31 (a c_int), which the validator maximum alone can exceed.", "quantifier": "all argument tuples", "why_tests_cant": "Universal over arguments.", "anchors": ["crates/bls-snark-sys/src/snark/epoch_block.rs: encode_epoch_block_to_bytes_cip22, encode_epoch_block_to_bytes, read_epoch_entropy"]}
{"id": "C55", "title": "FFI compression helpers", "statement": "compress_signature and compress_pubkey return true exactly on inputs that are long enough with every coordinate below p and panic on everything else (they never return false); on the library's uncompressed encoding of a finite point they agree with the library's compressed serialisation, on its encoding of infinity they panic; they perform no curve membership check: an off-curve pair compresses to the encoding of the curve point with that abscissa and sign.", "quantifier": "all byte strings", "why_tests_cant": "Universal over byte strings.", "anchors": ["crates/bls-snark-sys/src/serialization.rs: compress_signature, compress_pubkey"]}
{"id": "C56", "title": "Projective denominators are free witnesses", "statement": "Points allocated as circuit variables have a free third projective coordinate, while encodings and sign bits read the first two coordinates directly. Hence in the epoch circuit the bits hashed for a validator key, and the abscissa selected by the hash-to-group digest, do not determine the point used in the pairing equation: every non-zero abscissa opens to every curve point with non-zero coordinates, up to sign. If the coordinate is pinned to 0 or 1 the encoding determines the point.", "quantifier": "all curve points, digests and key encodings", "why_tests_cant": "Tests only run the honest witness generator, which always assigns 1 to the coordinate; the claim quantifies over adversarial assignments of the constraint system.", "anchors": ["crates/bls-gadgets/src/hash_to_group.rs:256-322", "crates/epoch-snark/src/gadgets/mod.rs:103-112", "crates/epoch-snark/src/gadgets/epoch_data.rs:189-207"]}
{"id": "C57", "title": "FFI hash outputs", "statement": "hash_direct and hash_direct_with_attempt write the 97-byte affine form of the cofactor-cleared point of the least successful counter (and that counter) for the domain selected by use_pop; hash_composite and hash_composite_cip22 write the 144-byte Jacobian coordinates of the point of the same try-and-increment rule; the direct ones never panic, the composite ones only if the Pedersen hash does on their input; they write iff they return true. The affine form determines the point and is determined by it; the Jacobian form determines the point, but every finite point has several such forms.", "quantifier": "all messages, extra data, flags and representations", "why_tests_cant": "Universal over messages and counters; test vectors fix one representation.", "anchors": ["crates/bls-snark-sys/src/signatures.rs: hash_direct, hash_direct_with_attempt, hash_composite, hash_composite_cip22"]}
{"id": "C58", "title": "FFI proof verification", "statement": "The C verify call returns true iff both block arguments convert, the verifying key and the proof decode, and the Groth16 verifier accepts the two field elements packed from the BLAKE2s digests of the first and last boundary encodings; otherwise it returns false. The verdict depends on the blocks only through those encodings (round, the first block's epoch entropy and the last block's parent entropy are ignored), and equal verifier inputs mean equal encodings unless two encodings collide under BLAKE2s.", "quantifier": "all blocks, keys, proofs and verifier behaviours", "why_tests_cant": "Universal over blocks and adversarial proofs.", "anchors": ["crates/bls-snark-sys/src/snark/mod.rs: verify", "crates/bls-snark-sys/src/snark/epoch_block.rs", "crates/epoch-snark/src/api/verifier.rs: verify"]}
{"id": "C59", "title": "Helper proof of the two-proof mode: what it states and whether the epoch circuit can check it", "statement": "The public inputs of the HashToBits circuit are satisfiable exactly when they carry messages of the allocated lengths followed by their BLAKE2Xs expansions in the signature domain, and they determine the messages; the instance built by generate_hash_helper is satisfied by the prover's assignment, one message per transition (no padding to the number of epochs of the key), every failure being a panic. Its messages are the inner digests in reversed bit order and without counter and extra data, whereas the epoch circuit expands counter, extra data and digest: the inputs of a true helper statement therefore equal the inputs the epoch circuit hands to the helper verifier only if every inner digest d of the run has the same 64-byte expansion as d behind eight further bytes.", "quantifier": "all numbers and lengths of messages, all public inputs and assignments of the helper circuit, all transitions, all assignments of the epoch circuit, all Pedersen hashes with 48-byte digests", "why_tests_cant": "the circuit's own test feeds it hand-made messages and never pairs it with the epoch circuit (whose check of the helper proof is discarded); satisfiability and the impossibility of a match quantify over all assignments", "anchors": ["crates/epoch-snark/src/gadgets/hash_to_bits.rs:24-69", "crates/epoch-snark/src/api/prover.rs:84-118", "crates/epoch-snark/src/gadgets/epoch_bits.rs:101-152", "crates/bls-gadgets/src/hash_to_group.rs:103-142"]}
{"id": "C60", "title": "Keys, aggregates, serialised values and plain hashes through the C interface", "statement": "private_key_to_public_key returns the multiple of the generator; aggregate_signatures returns the sum, and the aggregate of signatures made through sign_message is accepted by verify_signature for the sum of the derived keys, under every flag pair with a meaning. serialize_* write 32, 48 (96 uncompressed) and 96 (192 uncompressed) bytes, report exactly that length and are read back as the same value; deserialize_* return true with the value a string stands for and otherwise false with nothing written, never panicking; the cached variant answers as the uncached one after any history. hash_crh ignores the requested length and determines the CIP22 point; hash_direct_first_step returns the requested number of bytes, block by block BLAKE2Xs in the signature domain, and hash_direct_with_attempt is the search over such first steps. Converting a message with empty data or empty extra data for C panics; any other arrives unchanged.", "quantifier": "all keys, messages, extra data, lists of signers, byte strings (with trailing bytes), call histories of the cache, requested lengths below 2^31, hash functions, square-root functions and subgroup tests", "why_tests_cant": "the C entry points are only called by foreign code; tests try one key and one message and never the rejected strings, trailing bytes, cache histories or empty messages", "anchors": ["crates/bls-snark-sys/src/signatures.rs:27-41", "crates/bls-snark-sys/src/signatures.rs:169-213", "crates/bls-snark-sys/src/signatures.rs:484-505", "crates/bls-snark-sys/src/serialization.rs:12-162", "crates/bls-snark-sys/src/utils.rs:36-103"]}
{"id": "C61", "title": "The composite hasher's collision-resistant hash", "statement": "COMPOSITE_HASHER.crh returns exactly the 48-byte little-endian x coordinate of the linear combination of the 560 window bases whose scalars are the base-16 strings of the message's 3-bit chunks (digits 1 to 4 with sign). These scalars determine the message, including its length, so two different messages with one digest yield a non-trivial relation, with scalars below 2^373, between the bases; with bases of odd order dropping the y coordinate merges nothing. The parameters depend on the seed alone and are multiples by the cofactor of curve points. Messages are hashed exactly up to 19530 bytes; on anything longer crh, the composite hash-to-curve functions and every C entry point using them (signing, verifying, hash_composite*, hash_crh) panic, so epoch blocks can be signed or verified exactly up to 206 validators. The empty message has the all-zero digest.", "quantifier": "all messages of any length, all bases and seeds, all square-root functions, keys, signatures, extra data and epoch blocks", "why_tests_cant": "tests hash a handful of random short messages with one fixed seed; collision resistance relative to the bases and the exact panic threshold quantify over all messages and lengths", "anchors": ["crates/bls-crypto/src/hashers/composite.rs:20-95", "crates/bls-crypto/src/hash_to_curve/try_and_increment.rs", "crates/bls-crypto/src/hash_to_curve/try_and_increment_cip22.rs", "crates/bls-snark-sys/src/signatures.rs"]}
{"id": "C62", "title": "What a light client may conclude from a successful verify call", "statement": "If the C function verify returns true for a verifying key whose proof system is sound for the epoch circuit without helper proof, then there is a sequence of block headers, from one showing the fields of the first block to one showing the fields of the last block, with no dummies and no longer than the circuit, in which every header is signed (jointly, by one aggregate signature) by a quorum of the validators of the header before it; the indices increase by one as integers, so that the number of headers is the difference of the two indices modulo 2^16; the signers of the first step are validators of the first block, never padding keys; and if the indices are consecutive the signature is one by such a quorum on the last block alone. The only other possibility is that the circuit's first or last message and the native one are different with the same BLAKE2s digest.", "quantifier": "for all byte strings passed as key and proof, all blocks C can pass, all proof systems that are sound for the circuit, all pairings, all circuit sizes", "why_tests_cant": "a test runs honest provers; the claim is about every proof the verifier accepts, whoever made it, and composes decoding, encoding, hashing, packing and every constraint of the circuit", "anchors": ["crates/bls-snark-sys/src/snark/mod.rs", "crates/epoch-snark/src/api/verifier.rs", "crates/epoch-snark/src/gadgets/single_update.rs", "crates/epoch-snark/src/gadgets/epochs.rs"]}
{"id": "C63", "title": "Setup, prover and verifier use one constraint system", "statement": "The constraints of the epoch circuit depend only on the numbers of validators, bitmap bits and epochs and on whether a helper proof is used: two instances with equal numbers make the same allocations and, as functions of the assigned values, the same constraints, in the same order under every assignment, whatever their blocks, keys, bitmaps, thresholds and signatures. So the empty instance that setup generates keys for is the system that prove fills in, provided max_transitions equals num_epochs and every block has num_validators keys and bits, and the helper verifying key built into both is the same; the maximum_non_signers argument of setup has no effect. More epochs always mean more constraints. The second circuit (HashToBits) agrees between setup and prove exactly when the number of transitions equals num_epochs: with padding by dummies the helper instance has a different number of public inputs than the helper key. With a sound key generation, what verify certifies (C62) follows for keys made by setup.", "quantifier": "for all instances, witness values, key generation functions, random generator states, parameters of setup, chains given to prove, groups and Pedersen hashes that are defined by message length", "why_tests_cant": "a test compares a few instances; a constraint that depends on a value shows only for the value that changes it, and a mismatch of setup and prover shows only as an invalid proof for particular inputs", "anchors": ["crates/epoch-snark/src/api/setup.rs", "crates/epoch-snark/src/api/prover.rs", "crates/epoch-snark/src/gadgets/epochs.rs", "crates/epoch-snark/src/gadgets/single_update.rs", "crates/epoch-snark/src/gadgets/epoch_data.rs", "crates/epoch-snark/src/gadgets/hash_to_bits.rs"]}
{"id": "C64", "title": "FFI memory protocol", "statement": "A C client that passes only pointers it holds, of the expected types, and releases each object or buffer it was handed at most once, with the matching destructor (free_vec with the length it was given), never runs into undefined behaviour, whatever the calls compute, provided no buffer reaches 2^31 bytes. At every moment the live allocations are those of before plus exactly one per non-empty handle held, so once all are released nothing is leaked; a returned pointer is non-null, was not in use, holds what the call computed, and keeps holding it until released. Calls returning false allocate and store nothing; null is refused with false. A second release, another destructor, another length, or the reported length of a buffer of 2^31 bytes or more does not give the buffer back correctly.", "quantifier": "all allocators, vector growth policies, initial heaps, and sequences of calls and releases of any length", "why_tests_cant": "Undefined behaviour is invisible to tests, and the claim covers every interleaving of calls and releases and every allocator.", "anchors": ["crates/bls-snark-sys/src/serialization.rs: destroy_private_key, free_vec, destroy_public_key, destroy_signature, serialize, deserialize", "crates/bls-snark-sys/src/signatures.rs: Box::into_raw / mem::forget endings"]}
{"id": "C65", "title": "Outcome of proving any chain", "statement": "Let prove be called with a sound initial block and any list of transitions whose blocks have sound fields (each for its own number of validators, not assumed to be signed, linked or numbered correctly), and let max be at least their number. Take the updates in order, dummies included. The first update that has the wrong number of keys, whose block has no hash, whose bitmap is empty or has the wrong length, or (with debug assertions) has 256 zeros or more, ends the synthesis: with SynthesisError Unsatisfiable if no counter gives a hash, MissingCS for an empty bitmap, and a panic in the other cases. If there is no such update, the synthesis completes, and the assignment satisfies the constraints exactly if the chain is acceptable: every block with non-zero index has the next index, names the entropy of the block before (when the initial block has entropy), and is signed by validators among whom the padding key does not occur and of whom at most max_non_signers, and at most 255, are missing, with a non-zero aggregated key; blocks with index 0 are passed over but need enough signers; the last block is no dummy and its keys have a finite sum; and the aggregated signature verifies for the hashes and aggregated keys. The public inputs are the native ones for the first and the last block whether or not the assignment satisfies the constraints.", "quantifier": "for all initial blocks, lists of transitions, paddings, validator counts, bitmaps and signatures, with or without a helper proof and debug assertions", "why_tests_cant": "The tests of the circuit use a few chains of fixed length with a handful of errors; which errors are caught by a panic, which by an error and which by unsatisfied constraints is a statement about all chains.", "anchors": ["crates/epoch-snark/src/api/prover.rs", "crates/epoch-snark/src/gadgets/epochs.rs", "crates/epoch-snark/src/gadgets/single_update.rs", "crates/epoch-snark/src/gadgets/epoch_data.rs", "crates/bls-gadgets/src/bitmap.rs", "crates/bls-gadgets/src/bls.rs"]}
{"id": "C66", "title": "Points of both curves form a group; sums are chord-and-tangent sums", "statement": "For all points P, Q of the curve of G1 (y^2 = x^3 + 1 over F_p) or of the curve of G2 (the twist over F_p^2), the sum that aggregation uses is the reflection of the third point of the line through P and Q (the tangent if P = Q), or infinity if Q = -P. Addition is closed, associative and commutative with infinity as identity and reflection as inverse, so the sum of a list of signatures or keys depends on neither order nor grouping.", "quantifier": "all points of both curves, all lists of points", "why_tests_cant": "Associativity of the chord law is a polynomial identity over 2^377-element fields; tests add a handful of points.", "anchors": ["crates/bls-crypto/src/bls/signature.rs", "crates/bls-crypto/src/bls/public.rs", "crates/bls-crypto/Cargo.toml"]}
{"id": "C67", "title": "From set-up to verify on the real curves: honest epoch chains are accepted, accepted consecutive blocks carry a quorum", "statement": "Take the groups to be all points of the BLS12-377 curve and of its twist, as the code's G1Projective and G2Projective are. (1) For every honest chain of epochs (each block signed by enough validators of the previous one, indices increasing by one, entropies linked), proving it with the parameters that trusted_setup made for this number of validators and epochs yields proof bytes which the C function verify accepts for the serialized first and last block, for chains shorter than the number of epochs too (padding), as long as no padding key is among the signers. (2) Conversely, if verify accepts two blocks with consecutive indices under a key from trusted_setup, then, unless two different messages at hand collide under the hash, validators of the first block (the padded list, up to the sign of keys whose sign bit is undetermined, never the padding key) at least as many as the list minus the maximum of non-signers have together signed a header that shows the last block. (3) The encodings and public inputs computed inside are those of the native encoder.", "quantifier": "every pairing that is additive in its first argument at the generator of G2, every proof system that is complete (1) or sound (2), every number of validators below 2^32 and of epochs, every chain, every pair of C blocks", "why_tests_cant": "The integration test proves one chain of fixed size with one key set; it says nothing about other sizes, padding, the C conversion, nor about which block pairs an adversary could get accepted.", "anchors": ["crates/epoch-snark/src/api/prover.rs", "crates/epoch-snark/src/api/setup.rs", "crates/epoch-snark/src/api/verifier.rs", "crates/bls-snark-sys/src/snark/mod.rs: verify", "crates/epoch-snark/src/gadgets/epochs.rs"]}
{"id": "C68", "title": "Order of the curve of G1, and what the subgroup test accepts", "statement": "The curve of G1 has exactly r*h points, h the cofactor used by hash-to-curve. A point of the curve is killed by r exactly if it is one of the r distinct multiples of the generator, and multiplying any point by the cofactor gives such a multiple. Hence every successful hash to G1 (plain or CIP22) returns a multiple of the generator other than infinity, and Signature deserialisation accepts exactly the encodings of multiples of the generator.", "quantifier": "all points of the curve, all messages, extra data, domains, hashers and byte strings", "why_tests_cant": "The number of points (about 2^377) cannot be counted, and no sample of points shows that none escapes the subgroup after clearing the cofactor.", "anchors": ["crates/bls-crypto/src/hash_to_curve/try_and_increment.rs", "crates/bls-crypto/src/hash_to_curve/try_and_increment_cip22.rs", "crates/bls-crypto/src/bls/signature.rs"]}
{"id": "C69", "title": "Order of the curve of G2, and which public keys are accepted", "statement": "The twist (the curve of G2) has exactly r*h points, h the cofactor of ark-bls12-377. A point of the twist is killed by r exactly if it is one of the r distinct multiples of the generator, and multiplying any point by the cofactor gives such a multiple. Hence every successful hash to G2 (plain or CIP22) returns a multiple of the generator other than infinity, and PublicKey deserialisation accepts exactly the encodings of multiples of the generator, so each accepted key belongs to exactly one private key below r.", "quantifier": "all points of the twist, all messages, extra data, domains, hashers and byte strings", "why_tests_cant": "The number of points (about 2^754) cannot be counted, and no sample of points shows that none escapes the subgroup after clearing the cofactor, nor that no accepted key lies outside the group generated.", "anchors": ["crates/bls-crypto/src/bls/public.rs", "crates/bls-crypto/src/hash_to_curve/try_and_increment.rs", "crates/bls-crypto/src/hash_to_curve/try_and_increment_cip22.rs"]}
{"id": "C70", "title": "The signature scheme of the C interface, from bytes to bytes, on the groups of BLS12-377", "statement": "For every pairing that is additive in both arguments on G1 x G2 and non-zero at the generators: a caller of the C interface who reads a private key of 32 bytes, computes the public key and writes it gets the encoding of that multiple of the G2 generator (and fails exactly for buffers that are too short or numbers >= r); signing gives the encoding of the same multiple of the hashed message; reading a public key and a signature and verifying answers true exactly if one number below r gives both the key and the signature, and false for all other points of the groups; so what is signed verifies (whatever bytes follow in the buffers), for one key and message there is one accepted signature byte for byte, for one signature and message one accepted key, the aggregate of accepted signatures of different keys on one message is accepted under the aggregate key whatever the cache held, and proofs of possession behave likewise. A key passed twice to aggregate_public_keys counts once, so the aggregate of its signature taken twice is rejected.", "quantifier": "all byte strings for keys, signatures, messages and extra data, all flag values, all cache histories and iteration orders, all pairings with the stated laws", "why_tests_cant": "Tests sign and verify a few random keys; they cannot show that no other byte string is accepted for any key and message, nor that the answer never depends on trailing bytes or on what the cache saw before.", "anchors": ["crates/bls-snark-sys/src/signatures.rs", "crates/bls-snark-sys/src/serialization.rs", "crates/bls-crypto/src/bls/secret.rs", "crates/bls-crypto/src/bls/public.rs", "crates/bls-crypto/src/bls/signature.rs", "crates/bls-crypto/src/bls/cache.rs"]}
{"id": "C71", "title": "What an accepted epoch proof says about private keys, on the curves of BLS12-377", "statement": "For every pairing that is additive on the curve and on G2 and non-zero at the generators: the batched pairing equation of the epoch circuit for hashes H_i and keys k_i times the G2 generator holds exactly if the signature equals the sum of k_i H_i after multiplication by the cofactor (and for points of G1, exactly if it equals that sum). Hence, when the C function verify returns true under a key of the trusted set-up with a sound proof system: unless the messages at hand collide, there are a header showing the first block, a header showing the last block and headers between them, indices counting up, such that every header is signed with the private keys of a quorum of the committee before it (their sum not 0 modulo r), provided the committees in between have keys in G2 (those of the first block always have). For blocks with consecutive indices the private keys belong to validators of the first block itself, at least as many as the quorum asks for, none of them the private key 1 of the padding keys, up to the sign of keys with an undetermined sign bit.", "quantifier": "all pairings with the stated laws, all verifying keys of the set-up, proofs, serialized blocks, set sizes and numbers of epochs", "why_tests_cant": "Tests check one honest proof and a few broken ones; they cannot show that every accepted proof comes from private keys of a quorum, nor which signatures the pairing equation cannot tell apart.", "anchors": ["crates/epoch-snark/src/api/verifier.rs", "crates/epoch-snark/src/api/setup.rs", "crates/epoch-snark/src/gadgets/epochs.rs", "crates/bls-gadgets/src/bls.rs", "crates/bls-snark-sys/src/snark/mod.rs"]}
{"id": "C72", "title": "Batch verification through the C interface, from bytes to answers, on the groups of BLS12-377", "statement": "Keys and signatures given as bytes are deserialized and passed to batch_verify_signature or batch_verify_strict. batch_verify_signature answers true exactly when every key encodes a multiple sk_i of the G2 generator, every signature encodes a point of G1, every message has a hash H_i, and the signatures add up to the sum of sk_i H_i. So items accepted one by one are accepted together; but any reassignment of the signatures to the items is accepted as well, and two signatures swapped between two keys on one message pass although verify_signature rejects the first pair. batch_verify_strict writes for every batch the answer it would give for that batch alone and returns whether all are true; pairs which verify_signature accepts are accepted for all random bytes; a batch with a pair which verify_signature does not accept is accepted for at most one in 2^(8k) of the random bytes, k >= 16 the number of bytes per pair.", "quantifier": "all byte strings, messages, batches, flags and random bytes; all bilinear non-degenerate pairings, square-root functions and Pedersen hashes returning bytes", "why_tests_cant": "Tests check a few batches with one set of random bytes; they cannot bound the random bytes for which a bad pair passes nor describe all batches accepted by the unweighted check.", "anchors": ["crates/bls-snark-sys/src/signatures.rs:279-404", "crates/bls-snark-sys/src/utils.rs:22-74", "crates/bls-crypto/src/bls/signature.rs", "crates/bls-crypto/src/bls/batch.rs"]}
{"id": "C73", "title": "Generated private keys are uniformly distributed below the group order and usable", "statement": "PrivateKey::generate (generate_private_key of the C interface), as a function of the stream of u64 values the random number generator returns: a generated key is below the group order r; among all strings of n draws (four u64 values each) every number below r comes out of exactly ((2^256)^n - (2^256 - 8r)^n) / r of them, so keys are exactly uniform if the draws are; the loop is still running after n draws for (2^256 - 8r)^n strings, less than one in 2^n. Serialized, the key is its 32 little-endian bytes; it has a public key, and its signature on any message that has a hash is accepted by verify_signature. The key may be 0: then the public key is infinity and one signature is accepted for all messages.", "quantifier": "all numbers of draws, all streams of random values, all keys below r, all messages and flags", "why_tests_cant": "Tests draw a handful of keys; exact uniformity, the absence of a bias by the masking and the rejection, and the zero key (probability 1/r) cannot be observed.", "anchors": ["crates/bls-crypto/src/bls/secret.rs:26-30", "crates/bls-snark-sys/src/signatures.rs:15-25"]}
{"id": "C74", "title": "Aggregate and subtracted public keys depend only on the bytes of the keys, whatever the process did before", "statement": "For a process that reads keys from bytes (deserialize_public_key or deserialize_public_key_cached), calls aggregate_public_keys and aggregate_public_keys_subtract in any sequence with one shared cache, and writes the result with serialize_public_key: every answer is the encoding of the sum of the distinct G2 points encoded, or of the point which added to that sum gives the aggregate; there is an answer exactly when every key can be read. It does not depend on earlier requests (including failed ones), order, repetition, bytes after the first 96, which reader was used, hash-set iteration order, or calls of other threads in between. The aggregate key of all validators minus the keys of those who did not sign accepts the aggregate of the signatures of those who did. Subtracting is not idempotent: subtracting the same key again is not noticed and gives a different key.", "quantifier": "all sequences of requests, all lists of byte strings as keys, all hash functions and iteration orders of the hash sets, all pairings, messages and flags", "why_tests_cant": "The answers come from a cache that is updated incrementally; tests try a few sequences with a few keys, not every history, order and partition into signers and others.", "anchors": ["crates/bls-snark-sys/src/signatures.rs:427-482", "crates/bls-snark-sys/src/serialization.rs:24-60", "crates/bls-crypto/src/bls/cache.rs:49-87"]}
{"id": "C75", "title": "Aggregates of keys whose possession was not proved say nothing about who signed; a proof of possession must bind its owner", "statement": "For any G2 keys and any private key k there is a further valid G2 key (computed from the public keys only) such that aggregate_public_keys of all of them returns exactly the public key of k; every signature that sign_message makes with k alone is then accepted by verify_signature under that aggregate key, so acceptance does not imply that the owners of the aggregated keys signed. verify_pop accepts a signature S for that key on a message exactly when it accepts k*H(message) - S for the sum of the others' keys on the same message, so a proof of possession stops the attack exactly as far as nobody else can prove possession of that sum on the same message. From a victim's published proof of possession on a message an accepted proof on the same message for the cancelling key follows, so messages must identify the owner.", "quantifier": "all lists of G2 keys, all private keys, all histories of the shared cache, all messages, extra data and flags, all bilinear non-degenerate pairings", "why_tests_cant": "Tests aggregate keys the test itself generated; a key chosen against others' keys and the exact limits of the possession proof are statements about all keys.", "anchors": ["crates/bls-snark-sys/src/signatures.rs:427-450", "crates/bls-snark-sys/src/signatures.rs:74-94", "crates/bls-crypto/src/bls/cache.rs:49-87", "crates/bls-snark-sys/src/signatures.rs:407-425", "crates/bls-crypto/src/bls/public.rs:60-130"]}
{"id": "C76", "title": "Hash to G1 is exactly uniform over non-zero points when the hash function's answers are", "statement": "Vary the answers of the hash function on the 255 inputs made from a domain, message and extra data over all tables of 64-byte digests. Then every point of G1 other than infinity is returned by HashToCurve::hash for exactly the same number of tables (no bias from masking to 377 bits, rejection of x >= p, the sign and infinity flag bits, points of order 2 or 3, or cofactor clearing), the counter returned by hash_with_attempt is independent of the point, and hash_with_attempt returns HashToCurveError for less than one table in 2^200. The same holds for the CIP 22 variant, and with and without the compat feature.", "quantifier": "all domains, messages and extra data, all points of G1, all hash functions given by their answers, both variants, compat on and off", "why_tests_cant": "The statement counts 2^130560 tables; tests sample a few hashes and could not see a bias below 2^-30, nor the failure rate.", "anchors": ["crates/bls-crypto/src/hash_to_curve/try_and_increment.rs:61-140", "crates/bls-crypto/src/hash_to_curve/try_and_increment_cip22.rs:61-135", "crates/bls-crypto/src/hash_to_curve/mod.rs:70-157"]}
{"id": "C77", "title": "Whoever makes an accepted epoch proof knows the quorums' aggregate signature", "statement": "Every assignment of the epoch circuit contains the values of all headers and the coordinates of a point s such that C44's statement holds for exactly those. If the C function verify returns true and the proof system extracts an assignment from accepted proofs, the extracted assignment contains a point from which the exact aggregate of the quorums' signatures on the headers is computed: subtract the generator once per dummy epoch and multiply by one fixed number. For blocks with consecutive indices this is the signature on the last block's header made with the private keys of a quorum of the first block's validators. (That a signature merely exists says nothing: one exists for all hashes and all keys of G2.)", "quantifier": "all circuit sizes, all assignments, all setups, keys, proofs and blocks; any extractor; any pairing additive on the curve and G2 and not zero at the generators", "why_tests_cant": "Speaks of all assignments, including those no honest prover computes, and of every accepted proof; tests run the honest prover.", "anchors": ["crates/epoch-snark/src/gadgets/epochs.rs:81-312", "crates/epoch-snark/src/gadgets/single_update.rs:79-136", "crates/epoch-snark/src/gadgets/epoch_data.rs:102-233", "crates/epoch-snark/src/api/verifier.rs:14-40", "crates/bls-snark-sys/src/snark/mod.rs:23-60"]}
{"id": "C78", "title": "A signature accepted under one key speaks about one message, one epoch block, one mode and one purpose", "statement": "If verify_signature accepts one signature under one key (not the point at infinity) for two requests with the same flags, then the extra data and message are the same (without CIP22: their concatenation is), or the two requests themselves give a collision: the differences or doubled sums of their digit scalars are a non-trivial relation between the Pedersen bases (composite), or they have one BLAKE2s digest (direct), or their different inputs to BLAKE2Xs lead to one point. Conversely the answers agree whenever the content does. The same for proofs of possession and for encoded epoch blocks, in both encodings: one block up to absent entropies and padding. Under different flags, or between a signature and a proof of possession, only the last kind of collision remains, whatever the messages.", "quantifier": "all keys, signatures, messages, extra data, flags and epoch blocks; all Pedersen parameters; compat on or off; any bilinear pairing not zero at the generators", "why_tests_cant": "Speaks of all pairs of messages; a test compares a few of them and cannot say what a coincidence would need.", "anchors": ["crates/bls-snark-sys/src/signatures.rs", "crates/bls-crypto/src/bls/public.rs", "crates/bls-crypto/src/hash_to_curve/try_and_increment.rs", "crates/bls-crypto/src/hash_to_curve/try_and_increment_cip22.rs", "crates/bls-crypto/src/hashers/composite.rs", "crates/epoch-snark/src/epoch_block.rs"]}
{"id": "C79", "title": "A light client that verifies proof after proof follows one chain of committees, and what escapes it between calls", "statement": "Let a client call verify any number of times, each call starting with the block at which the one before ended, and all return true. Then either the assignment extracted from some call exhibits two different messages with one BLAKE2s digest, or every call shows its two blocks and contains the aggregate signature of the quorums in between (C77), and the committee with which a call starts is the one with which the call before it ended (numbers modulo their widths, keys up to the sign of keys with an undetermined ordinate). Every call moves the index on by at least one and at most the epochs of the circuit, modulo 2^16, so as long as the calls times the epochs stay below 2^16 no accepted sequence leads back to an index it has passed. The entropies are not followed across calls: the answer of verify does not depend on the round of either block, the epoch entropy of the first or the parent entropy of the last.", "quantifier": "all sequences of accepted calls of any length, all blocks, proofs and setups; any extractor; any pairing additive on the curve and G2 and not zero at the generators", "why_tests_cant": "Speaks of unboundedly many calls with adversarial proofs; tests make one call with an honest proof.", "anchors": ["crates/bls-snark-sys/src/snark/mod.rs:23-60", "crates/epoch-snark/src/api/verifier.rs:14-40", "crates/epoch-snark/src/epoch_block.rs:106-211", "crates/epoch-snark/src/gadgets/epochs.rs:81-312"]}
{"id": "C80", "title": "Omitting the prime-order checks does not break the arithmetic of the circuit", "statement": "The circuit allocates keys, hash candidates and signatures without checking their order, and adds with formulas that fail when a difference has order two. On the twist there is no such difference: for all points of the curve, in the subgroup or not and with any third coordinate, sums in coordinates are the sums of the group, the aggregation with a bitmap computes and accepts exactly what the aggregation in the group does, and the affine coordinates of the sum of all keys exist and are right exactly if that sum is not zero. The triple (0,0,0), which satisfies the curve equation, cannot sign and cannot be among the keys of the last epoch. On the curve of the hashes exceptions exist (the result is then (0,0,0), which stands for no point), but none occurs in the multiplication by the cofactor, or by any number of up to 250 bits, of any point that the cofactor does not send to zero; there two summands are also never equal, opposite or zero.", "quantifier": "all points of the two curves, all coordinates standing for them, all bitmaps and key lists, all multipliers of up to 250 bits", "why_tests_cant": "Tests add a few points of prime order; the claim is about every point of the curve, including those outside the subgroup that only a dishonest prover would use.", "anchors": ["crates/bls-gadgets/src/bls.rs:137-171", "crates/bls-gadgets/src/hash_to_group.rs:266-341", "crates/epoch-snark/src/gadgets/epochs.rs:264-279", "crates/epoch-snark/src/gadgets/epoch_data.rs:180-215"]}
{"id": "C81", "title": "Forging an accepted signature solves a Diffie-Hellman problem; accepted proofs of possession extend this to aggregates", "statement": "Let A = a·(generator of G2) be the key of an honest owner and Y a point of G1. If verify_signature accepts, for the bytes of A, a signature on a message that hashes to k·Y, then the signature divided by k is a·Y, the only answer to the Diffie-Hellman problem (A, Y). If the key is the sum of A and any other keys, chosen in any way, and verify_pop accepted a proof of possession of each of those on a message hashing to a known multiple of Y, then a·Y is computed from the aggregate signature and the proofs: the signature divided by k less each proof divided by its factor. The same holds for the aggregate key as the C interface and its cache compute it from different keys, after any history of the process. What the honest owner gives away does not help: where a message hashes to a known multiple of the generator of G1, the bytes that sign_message and sign_pop return are computed from a·(generator of G1) without the private key. Every point that can be a hash is a multiple of Y, and of the generator, in exactly one way, so that uniform factors give uniform hashes (with C76).", "quantifier": "all bytes of keys and signatures, all messages and extra data, all hashers and variants, all numbers of other keys, all histories of the cache, all bilinear maps", "why_tests_cant": "Unforgeability is about what any adversary could produce; no run of the code shows that an accepted forgery would yield the answer to a hard problem.", "anchors": ["crates/bls-crypto/src/bls/signature.rs:61-68", "crates/bls-crypto/src/bls/public.rs:38-120", "crates/bls-crypto/src/bls/secret.rs:34-68", "crates/bls-crypto/src/bls/cache.rs", "crates/bls-snark-sys/src/signatures.rs"]}
{"id": "C82", "title": "An accepted epoch proof between consecutive blocks yields the signature of every validator it counts", "statement": "Let verify return true for a key from the set-up, a proof and two blocks of which the second follows the first. From the assignment that the extractor of the proof system computes, a point T is computed by a fixed formula. Either the assignment contains a collision of the digest, or it contains headers that show the two blocks, and some of the first block's validators are counted as signers: never a padding key, never nobody, and at least one of every set of validators with more members than the maximum of non-signers in the assignment. If proofs of possession of all counted keys but one, A, were accepted on messages hashing to known multiples of a point Y, and the header showing the second block hashes to a known multiple of Y, then a·Y is computed from T and these proofs. So without a collision and without solving the Diffie-Hellman problem for an honest validator (C81), no proof is accepted that counts this validator although they did not sign that header.", "quantifier": "all proofs, blocks, verification keys from any set-up, extractors, pairings additive on the curves, validator sets of any size, all choices of honest validators", "why_tests_cant": "The claim is about every accepted proof, including those that no honest prover makes; tests make honest proofs and check that they verify.", "anchors": ["crates/epoch-snark/src/gadgets/epochs.rs:82-340", "crates/epoch-snark/src/gadgets/single_update.rs:79-190", "crates/epoch-snark/src/api/verifier.rs:14-40", "crates/bls-snark-sys/src/snark/mod.rs", "crates/bls-crypto/src/bls/public.rs:85-120"]}
{"id": "C83", "title": "Hashes of different messages are independent and collide as rarely as random points", "statement": "Take any number of queries, each a domain, message and extra data hashed with or without CIP 22, and vary the answers of the hash function on their 255 inputs each over all tables of 64-byte digests. Then HashToCurve::hash returns every combination of points of G1 other than infinity, one point per query, for exactly the same number of choices of tables, namely the product of the numbers of C76. So knowing the hashes of some of the messages says nothing about the hashes of the others, and two queries hash to the same point for exactly one in r - 1 of the pairs of tables for which both give points.", "quantifier": "all numbers of queries, domains, messages and extra data, all combinations of points of G1, all hash functions given by their answers, both variants in any mixture, compat on and off", "why_tests_cant": "The statement counts the tables for arbitrarily many messages together; tests hash a few messages and can see neither a correlation nor a collision probability of 2^-253.", "anchors": ["crates/bls-crypto/src/hash_to_curve/try_and_increment.rs:61-140", "crates/bls-crypto/src/hash_to_curve/try_and_increment_cip22.rs:61-135", "crates/bls-crypto/src/hash_to_curve/mod.rs:70-157"]}
{"id": "C84", "title": "An accepted batch contains no message that the owner of an honest key did not sign", "statement": "batch_verify_signature may accept a batch in which single signatures are wrong (C72). But let it answer true for a batch, and let A, a times the generator of G2, be an honest public key. If the items of A hash to known multiples of a point Y, or of the generator where the honest owner's signature was given away, and the items of other keys hash to known multiples of Y with accepted proofs of possession or have known private keys, then a times Y is computed from the signatures of the batch added up, the proofs and a times the generator of G1, without the private key, provided the multiples of Y of the honest items do not add up to 0. In particular this holds for a batch with one item of A whose message was not signed. So without solving the Diffie-Hellman problem for an honest key (C81) nobody gets a batch accepted that contains an unsigned message under that key.", "quantifier": "all batches of any length, all keys, signatures and messages as bytes, all choices of the honest key, all pairings additive on the curves, both values of the flags, compat on and off", "why_tests_cant": "The claim is about all batches anybody could construct; tests check batches of honest signatures and single altered ones.", "anchors": ["crates/bls-snark-sys/src/signatures.rs:289-334", "crates/bls-crypto/src/bls/signature.rs:61-160", "crates/bls-crypto/src/bls/public.rs:85-120"]}
{"id": "C85", "title": "The Pedersen digest determines the point the message is mapped to", "statement": "The composite hasher returns only the x coordinate of the point that the Pedersen hash maps a message to, and two points of the curve can share an x coordinate. For the parameters that setup returns they cannot: every base has been multiplied by the cofactor 8, the curve has no point of order 16 (and has points of order 8), so every base has odd order, and two combinations of such bases with the same x coordinate are equal. So two messages of at most 19530 bytes have the same digest exactly if they are mapped to the same point, and a collision gives the difference of the two messages' scalars as a non-trivial relation between the bases, with no second case. Without the cofactor (0,-1) minus the point would be a second point with the same digest.", "quantifier": "all seeds, all square roots the field library may return, all pairs of messages of any lengths up to the limit, all points of the curve", "why_tests_cant": "That no point of the curve has order 16 is a fact about 2^377 points, and that no two messages can be confused by dropping y is a fact about all pairs of messages.", "anchors": ["crates/bls-crypto/src/hashers/composite.rs:1-60"]}
{"id": "C86", "title": "One over-long message makes a whole batch call of the C interface panic", "statement": "batch_verify_strict panics exactly if the hash of one of the batches' messages panics, wherever that batch stands, so that the call does not return whatever the other batches are; batch_verify_signature panics exactly if the first message that does not hash to a point makes the hash panic. With the composite flag that is a question of length alone: more than 19530 bytes of data, where without CIP22 the extra data and the counter byte count too. Without the composite flag neither call panics on any messages. The order of the messages of batch_verify_signature decides only whether it panics: two orders that do not panic have the same answer. Nothing in either call turns the panic into a rejected batch.", "quantifier": "all lists of messages and of batches, of any lengths, all keys and signatures, all flags, all random draws of the right length", "why_tests_cant": "That a call panics in exactly these cases is a statement about all lists of messages; tests run batches of short messages.", "anchors": ["crates/bls-snark-sys/src/signatures.rs:279-404", "crates/bls-crypto/src/bls/batch.rs:1-97", "crates/bls-crypto/src/hashers/composite.rs:1-60"]}
{"id": "C87", "title": "How many byte strings are read as keys and signatures", "statement": "Of the strings of 32 bytes exactly r are read as private keys (zero among them). Of the strings of 48 bytes exactly r - 1 + p are read as signatures: one for each multiple of the generator of G1 other than infinity, and p for the point at infinity, because the coordinate beside the infinity flag is not looked at. Of the strings of 96 bytes exactly r - 1 + p^2 are read as public keys: one for each private key other than zero, and p^2 for infinity. Under the public key of a private key other than zero exactly one string of 48 bytes is accepted as the signature on a message; under the neutral key p strings are, the same for every message. So no key or signature other than the neutral one can be re-encoded, and all but a 2^-123 part of the accepted signature strings, and a 2^-500 part of the accepted key strings, stand for the neutral element.", "quantifier": "all byte strings of the three lengths, all square roots the field library may return, all private keys, all messages that can be hashed, all flags, every pairing that is additive and not constant", "why_tests_cant": "The counts are counts over 256^32, 256^48 and 256^96 strings; that a point has a second encoding shows only on a string nobody wrote.", "anchors": ["crates/bls-crypto/src/bls/signature.rs:31-57", "crates/bls-crypto/src/bls/public.rs:137-150", "crates/bls-crypto/src/bls/secret.rs:11"]}
{"id": "C88", "title": "The point at infinity as a public key: it proves possession, signs everything and hides in every aggregate", "statement": "A public key whose bytes are read as the point at infinity is not refused anywhere in the C interface. verify_pop accepts it for every message that can be hashed, with exactly the encodings of the neutral signature, so its proof of possession shows nothing; the same strings are accepted by verify_signature as its signature on every message, under all flags. Whether it stands anywhere among the keys given to aggregate_public_keys or aggregate_public_keys_subtract makes no difference to the answer, whatever the process did before, so it counts as a signer of everything the other keys sign together.", "quantifier": "all encodings of the key and of the signature, all messages, all flags, all lists of other keys, all earlier requests of the process, every pairing that is additive and not constant", "why_tests_cant": "The statements are about all messages, all lists of keys and all histories of the cache; tests use generated keys, which are never zero.", "anchors": ["crates/bls-snark-sys/src/signatures.rs:243-277", "crates/bls-snark-sys/src/signatures.rs:406-482", "crates/bls-crypto/src/bls/public.rs:137-150"]}
