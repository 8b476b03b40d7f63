# Formal model of celo-bls-snark-rs: design

## 1. Method

The sources in `/repo` were read as text; nothing was built or run.  Every Rust function that
matters for a property becomes a small total Gallina function whose comment cites file and lines.
`Result` stays data, a `panic!`/`unwrap` on `None`/failed `assert!` is the explicit value `Panic`,
`&mut` becomes a returned value.  Fixed-width integers are `Z`/`N` with the wrap written out
wherever a property depends on it.

Files are layered: `*Model.v` (definitions only), `*Spec.v` (the independent, small specification),
`*Proofs.v` (lemmas), `Prop*.v` (only `Theorem ... exact lemma` + `Print Assumptions`) and
`*Examples.v` (non-vacuity and conformance against the literals in the repository's own tests).

## 2. Algebra

* Scalar and base fields are integers modulo the real constants `r` and `p` of BLS12-377
  (`p` is also the scalar field of BW6-761, i.e. the circuit's field).  Primality of both is proved,
  by a Pocklington certificate, not assumed.
* The groups G1, G2, GT are a `Record` of abelian-group operations with the laws: order `r`, cyclic,
  bilinear non-degenerate pairing.  Every theorem about signatures is for *every* such record; the
  concrete record Z/r is built to show the laws are satisfiable.
* The groups of points themselves are built too: `CurveGroups.v` makes the points of y^2 = x^3 + 1 over F_p and of the twist over F_p^2
  a group (C66), associativity included (classes of ideals of the coordinate ring, with mathcomp), and `CurveCount.v` and `TwistCount.v` count the points of both (C68, C69).
* The coordinates (codecs, encodings, sign bits, `get_point_from_x`) are modelled on concrete affine
  coordinates over F_p and F_p^2 with the curve equations, not abstractly.

## 3. Plan per property

| id | modelled | how proved |
|----|----------|-----------|
| C01-C02 | `secret.rs`, `public.rs` over the pairing record with an arbitrary hasher oracle | bilinearity; non-degeneracy gives uniqueness |
| C03 | domains passed to the oracle; BLAKE2s parameter block bytes | trace of oracle queries; injectivity of the block |
| C04, C07 | aggregate / batch folds | induction, permutation |
| C05, C06 | `batch_verify`, `batch_verify_hashes` | product of pairings as a sum in GT; explicit cancelling witness |
| C08-C11 | `batch.rs` with the RNG output as a list of byte strings | linear equation in the exponent over Z/r; counting |
| C12-C16 | `cache.rs` as state machine, `lru` crate semantics written out; interleavings as lists | invariant over op lists, refinement to a stateless spec |
| C17 | `utils.rs` | induction on 8-bit chunks |
| C18-C20 | `encoding.rs`, `epoch_block.rs` on concrete coordinates | fixed-width splitting; F_p^2 is a domain |
| C21, C40 | `pack`, digests | base-2 value below modulus |
| C22-C24 | full executable BLAKE2s / BLAKE2Xs | lengths by induction; parameter-block decoder |
| C25-C27 | both try-and-increment loops over oracles | induction on the counter |
| C28-C30 | flags codec, `from_random_bytes`, `hash_length` on binary64 or its exact integer model, point codecs | case analysis over bytes, quadratic roots in F_p |
| C31-C36 | gadget constraints as decidable relations on field values and witnesses | soundness: every witness; completeness: honest witness |
| C37-C39 | `hash_to_group.rs`, `epoch_data.rs`, `epoch_bits.rs` | equality of bit strings; witness construction |
| C41-C48 | `epochs.rs`, `single_update.rs`, `prover.rs` as a relation over the list of epochs | induction on epochs; explicit adversarial witnesses for the negative parts |
| C49-C55, C57, C58, C60 | `bls-snark-sys` as functions from argument values to (return value, written outputs, panic) | case analysis, lifting of library theorems |
| C56 | the third projective coordinate of allocated points, as a free witness | explicit adversarial witnesses; `pin` switches the freedom off |
| C59 | `hash_to_bits.rs` and `generate_hash_helper` of `prover.rs` | equivalence of the circuit with a statement about expansions; mismatch of public inputs |
| C61 | `composite.rs` with the Bowe-Hopwood-Pedersen hash, its Edwards curve and its ChaCha-seeded parameters | group law of the complete twisted Edwards curve (proved); digit strings are injective; reduction of collisions to relations |
| C62 | `verify` of the C interface composed with the encodings and the epoch circuit (LightSpec, LightProofs) | soundness of the proof system as a hypothesis; C58, C42-C44; counting cannot wrap because index 0 is a dummy |
| C63 | `api/setup.rs` and the `empty` instances (SetupModel), constraint programs up to witness values (ShapeSpec) | congruence of the program combinators; a layout relation with unrelated witness values; counting gates |
| C64 | the heap behind the C interface (MemoryModel), the client's protocol (MemorySpec) | invariant: live blocks = initial blocks + footprints of the handles held, up to permutation |
| C65 | the prover's reading of the epoch circuit on the instance that `prove` makes of any chain (OutcomeSpec) | a calculus of runs that are satisfied exactly if a proposition holds; induction on the steps |
| C66 | the sum of points of both curves (Curve.v, CurveGroups.v) | the ideal of a point in the coordinate ring (Ideals, CoordRing, Weierstrass); chords are unique |
| C67 | set-up, prove, C conversion and verify composed, on the point groups of C66 | C46, C53, C58, C62, C63; completeness or soundness of the proof system as a hypothesis |
| C68 | the order of the curve of G1, the subgroup test, the hash and the signatures read on the real group | sums of cubic and quadratic characters give a^2 + 3 d^2 = 4 p for the trace (CubicCount, FieldCount, with mathcomp); unique factorisation of that form (NormForm); a certificate that r kills the generator (PointCert, PointData) and the endomorphism (x, y) -> (beta x, y) |
| C69 | the same for the twist: order, subgroup test, hash, public keys read | the same over F_p^2, with the endomorphism (x, y) -> (k^2 conj x, k^3 conj y) (Frobenius, TwistData, PointCert2); no point of order two |
| C70 | public key, signing, verifying, proofs of possession and aggregation through the C interface, bytes in and bytes out, on the real groups | the subgroups of order r of both curves as the groups of the pairing record (RealModel; cyclic by C68 and C69); C30, C49 and the cache invariant of C12 composed |
| C71 | an accepted epoch proof in terms of private keys: the pairing equation solved, quorums of private keys for every header | C63 and C67 with C68, C69; SecretSpec (`curve_pairing`, `signed_chain`); `same_in_g1`: equality after clearing the cofactor, all a pairing with G2 can see |
| C72 | batch verification through the C interface, bytes to answers: the unweighted check solved completely, the strict one sound up to a counted fraction of draws | RealBatchModel composes C50/C51 with the deserializers of C70; RealBatchSpec (`keyed`, `reassign`, `good_lot`) |
| C73 | key generation: exact uniformity by counting draws, the running loop, bytes, use through C70; the zero key | KeygenModel (draws as an argument); counting is stated for any list holding the strings with the property once each (`lists_all`) |
| C74 | any sequence of aggregate/subtract requests on bytes with the shared cache: each answered as if alone; signers = all minus absent | RealSessionModel on top of CacheModel, FfiModel and the groups of C70; `owed` says what the bytes determine |
| C75 | keys chosen to cancel others: aggregate acceptance does not identify signers; exact reach of proofs of possession | RogueSpec on the model of C70 and C74; no new code modelled |
| C76 | hashing to G1 over all tables of digests: every non-zero point equally often, counter independent, failure rate | HashUniformSpec (tables of answers) on HashCurveModel and C68; fibres of cofactor multiplication counted in the group of the curve |
| C77 | what an accepted epoch proof says about the knowledge of its maker: assignments contain the headers and the signature; the exact aggregate is computed from them | KnowledgeSpec (`satisfies`: one value per allocated witness; `extractable`: the extractor of the proof system, a parameter) on the circuit model, with C71 |
| C78 | what one signature under one key is bound to: message, epoch block, flags, purpose; every exception is a collision computed from the two requests | BindingSpec (`expanded`, `selects`: the inputs of BLAKE2Xs and the points they lead to; `linked`: the relation between the Pedersen bases) on RealModel with `composite_crh`, using C19, C25, C61, C70 |
| C79 | sequences of accepted `verify` calls: one chain of committees, no return before the index wraps, entropies not followed across calls | LightSessionSpec (`session`, `relayed`, `same_committee`) on FfiModel, using C77 |
| C80 | projective addition, doubling, comparison, aggregation and cofactor multiplication in coordinates against the group law, for points of any order | CompleteModel (`p_add`, `p_mul_le`, `p_aggregate_loop`), CompleteSpec (`represents`, `order_two`), orders of the curves from C69/C73 |
| C81 | the algebra of the security reduction: from accepted (aggregate) signatures and accepted proofs of possession to the answer of a Diffie-Hellman problem, and signing without the private key on programmed hashes | ReductionSpec (`answers`, `divided`, `extracted`, `proved`), models of C70 and C74 |
| C82 | C77 and C81 together: an accepted epoch proof between consecutive blocks gives the signature of each validator it counts | KnowledgeSpec (`extractable`, `contains_g1`), ReductionSpec (`answers`, `extracted`, `proved`), GadgetSpec (`signers`) |
| C83 | C76 for any number of queries together: the hashes are independent, two of them agree for one in r - 1 pairs of tables | JointSpec (queries, tables of answers) on HashCurveModel; products of the lists counted for C76 |
| C84 | what an accepted batch_verify_signature establishes although it only screens: C81 for the sum of the signatures | ScreenSpec (parts of the items, shares), ReductionSpec (`answers`, `divided`, `proved`), C72 |
| C85 | the 2-part of the Edwards curve's group and what the x coordinate of a digest determines | PedersenSpec (`combination`, `coefficients`, `relation`, `window_of`), C61 |
| C86 | when the batch calls of the C interface panic | FfiSpec (`selected`), FfiSpec (`strict_draw`), lengths of the messages |
| C87 | how many byte strings are read as keys and signatures | StringsSpec (`counted`), OrderSpec, TwistSpec, RealSpec (`hashed`) |
| C88 | the point at infinity as a public key, through the C interface | RealSpec (`hashed`), RealBatchSpec (`key_bytes`), RealSessionSpec (`proper`) |

### 3.1 The circuit layer

`Circuit.v` is a free monad of the operations a gadget can do: allocate a witness with a suggested value, enforce a
constraint (a Boolean condition on the values so far), fail with a synthesis error, or panic.  Two readings:

* `holds c x`: *some* choice of witness values makes every constraint of `c` true, and the output is `x`.  Soundness
  theorems quantify over it, so they speak about every assignment an adversary can choose.
* `prover c = Val (x, ok)`: the witness generators of the code are run; `ok` says whether all constraints hold.
  Completeness theorems are about this one.

Constraints are equations between field values of F_p (the scalar field of BW6-761).  The R1CS matrices themselves are not
modelled: linear combinations are values, and each library gadget is replaced by the relation it enforces (4.3).  In setup
mode (`ConstraintSystem::is_in_setup_mode`) the closures are not run; C63 shows that nothing else depends on them.

### 3.2 The parameter `pin`

`new_variable_omit_prime_order_check` allocates X, Y and Z of a projective point as free witnesses subject to the curve
equation only (and (0,0,0), which satisfies the equation, is excluded from the model; C80 shows that it can neither sign nor be a key of
the last epoch).  The honest prover uses Z = 1 (0 for
infinity).  The gadgets of this repository read the field `x`/`y` of the *projective* variable as if it was affine.  With
`pin = true` the model restricts witnesses to Z in {0, 1}; with `pin = false` Z is free.  C44 and the chain theorems are for
`pin = true`; C56 proves what goes wrong for `pin = false`.

## 4. Trusted base

### 4.1 Coq

* The Coq 8.16.1 kernel, including its VM (`vm_compute`), and `coqchk` as an independent re-check of the compiled files.
* Axioms: `Print Assumptions` follows every theorem named in MANIFEST.json, in the file that states it.  All are *closed under
  the global context* except the three theorems of C29 (`C29_hash_length`, `C29_model_length`, `C29_unbounded_refuted`: statements on binary64, which go through
  Flocq and the reals): they depend on `ClassicalDedekindReals.sig_not_dec`, `ClassicalDedekindReals.sig_forall_dec`,
  `FunctionalExtensionality.functional_extensionality_dep` and `Classical_Prop.classic`, all from the standard library.
* No axiom, `Admitted`, functor, module type, plugin or disabled check in `theories/`.

### 4.2 What is modelled

| source | model |
|---|---|
| bls-crypto `bls/secret.rs`, `public.rs`, `signature.rs`, `batch.rs` | BlsModel |
| bls-crypto `PrivateKey::generate`, ark-ff field sampling | KeygenModel |
| bls-crypto `bls/cache.rs` (and `lru` 0.x: capacity, recency, eviction) | CacheModel |
| bls-crypto `hashers/direct.rs`, `composite.rs` (BLAKE2s and BLAKE2Xs executable) | Blake2, HasherModel, PedersenModel, Edwards |
| bls-crypto `hash_to_curve/*.rs` (both loops, `hash_length`, `from_random_bytes`, compat and non-compat flags) | PointModel, HashCurveModel |
| bls-crypto canonical serialisation of keys and signatures | CodecModel |
| bls-gadgets `utils.rs`, `bitmap.rs`, `y_to_bit.rs`, `bls.rs` | GadgetModel |
| bls-gadgets `hash_to_group.rs` | HashGadgetModel |
| epoch-snark `encoding.rs`, `epoch_block.rs` | BitsModel, EncodingModel |
| epoch-snark `gadgets/pack.rs`, `epoch_bits.rs`, `epoch_data.rs`, `single_update.rs`, `epochs.rs` | EpochCircuitModel |
| epoch-snark `api/prover.rs`, `gadgets/hash_to_bits.rs` | ProverModel, HelperModel |
| epoch-snark `api/setup.rs` (Groth16 key generation as a parameter), the `empty` constructors of `epochs.rs`, `single_update.rs`, `epoch_data.rs` | SetupModel |
| epoch-snark `api/verifier.rs`; bls-snark-sys `signatures.rs`, `serialization.rs`, `utils.rs`, `snark/*.rs` | FfiModel |
| bls-snark-sys destructors, `free_vec`, the ownership of boxes and vectors handed to C | MemoryModel |

Not modelled: examples, benches, tests and `test_helpers.rs`; logging and
tracing; memory inside a call and running out of memory; concurrency other than the
lock around the public-key cache (C16); the scheduling of `rayon` (sums are in list order, which the group law makes irrelevant);
timing and side channels; the R1CS matrices and the number of constraints.

### 4.3 What is assumed about dependencies

The dependencies are not in the sandbox.  Their behaviour is written into the model from knowledge of the pinned versions:

* **Groups and pairing** (`ark-bls12-377`): a `pairing` record (three groups of exponent r, bilinear and non-degenerate, G1 and
  G2 cyclic).  `smul` is the integer multiple.  Satisfiable: Z/r with multiplication.  The epoch chain theorems only ask that
  P -> e(P, generator) is additive (`linear_at`).  That the points of both curves form groups is proved (C66), and that these
  groups have r times the cofactor many elements, those killed by r being the multiples of the generator (C68, C69); so C70 asks for bilinearity only.
  C71 asks for additivity in the first argument on the whole curve: the circuit does not check that signatures lie in G1, and the (reduced)
  ate pairing, a power of the Tate pairing on G2 x E/rE, is additive there.  Curve-level statements use `of_point :
  coordinates -> group` with exactly the laws named in each theorem (infinity is zero, negation negates y).
* **Square roots**: any function with `sqrt_spec` (some root if there is one, `None` otherwise).  One is constructed.
* **Coordinates**: `GroupAffine` infinity is (0, 1); `write` = x, y, infinity byte; `GroupProjective::write` = x, y, z; `Fq::read`
  rejects values from p on; `SWFlags` bits 7 and 6; the y sign compares y with -y as integers (lexicographically c1 then c0 on
  F_p^2).  `deserialize_uncompressed` does not check the curve equation in this version; compressed reading checks the subgroup.
* **ark-r1cs-std**: `to_bits_le` gives the unique 377-bit representation below p; `enforce_cmp` bounds both sides by (p-1)/2;
  `conditional_enforce_equal` is (a-b)*cond = 0; `conditional_enforce_not_equal` is not (equal and cond); `mul_by_inverse` by zero
  is unsatisfiable; `prepare_g2` rejects infinity and `prepare_g1` does not; the Miller loop zips its two lists; `cs()` of an empty
  slice is none, hence `MissingCS`; projective addition and `scalar_mul_le` are the group law (C80 proves it of the
  formulas the library uses, for the points that occur); `evaluate_blake2s` needs whole bytes.
* **Groth16**: `verify_proof` is an oracle; `SNARKGadget::verify` returns a Boolean, which `epochs.rs` drops (C39).  What accepted
  proofs mean is a hypothesis where it is used: `sound_for` (some assignment exists; C62, C63, C71) or `extractable` (an extractor computes one; C77).
* **Field sampling** (C73): `Distribution<Fp256>`: four u64 limbs, least significant first, the top three bits masked, rejected unless below r, taken as the Montgomery form.
* **Pedersen/ChaCha** (C61): `bowe_hopwood.rs` (chunks of three bits, digit 1 + b0 + 2 b1 with the sign b2, generators spaced by
  16, panics on inputs longer than the windows), `Distribution` for field elements (Montgomery form, top 7 bits masked) and for
  Edwards points (x, then a sign, cofactor 8), `rand_chacha`.  The model reproduces the digest of `test_crh_random` in
  `composite.rs` exactly.  The check takes 8 minutes with `vm_compute`, so it is not part of the build; the build
  checks the seed and the ChaCha20 keystream of the zero key.  The rest of the development takes the Pedersen hash as a parameter.
* **BLAKE2s/BLAKE2Xs**: re-implemented from the specification; `Conformance.v` checks the repository's vectors for the XOF.
* **std**: `HashMap`/`HashSet` behave as finite maps and sets of keys under `Eq`, in any iteration order (an oracle chooses it); `lru`
  keeps the most recently used entries; `Mutex`/`RwLock` serialise critical sections.
* **Integer widths**: the release profile has no overflow checks, so arithmetic wraps; `usize` is 64 bits.
* **Allocation** (C64): the allocator returns fresh non-null addresses; `dealloc` with another layout than the allocation's is undefined;
  a `Vec` without capacity has no buffer; `shrink_to_fit` makes the capacity the length; what a call allocates for itself, Rust drops.
* **C interface**: a pointer argument stands for the value behind it and is valid; `c_int` lengths are non-negative; an out
  parameter is `Some` exactly if it was written.  A Rust panic is the reply `Panics`, whatever the language boundary makes of it.

### 4.4 Reading the theorems

`Cnn_..._refuted` proves that a natural stronger claim fails in the model, by giving a counterexample.  They record findings: C06, C16 (lock needed),
C29 (unbounded lengths), C30 (infinity with any abscissa), C32/C33 (the midpoint), C36, C37 (unpadded blocks), C38 (any counter),
C39 (XOF bits unconstrained, helper proof dropped), C40, C41/C45 (values modulo 2^k), C43 (optional entropy links), C47, C48, C51
(empty and surplus arrays), C52 (duplicates), C54 (length wraps), C55 (panics), C56 (free Z), C59 (helper statement mismatch),
C60 (empty message), C61 (length limit: 206 validators), C64 (buffers of 2^31 bytes).

## 5. Mutation testing

`seeded/LOG.jsonl` has one line per seeded bug: the definition and edit, the claim it breaks, the theorems that failed, and the
theorems tightened afterwards.  The edits are made in a scratch copy.  When a lemma no longer compiles, it is admitted there and
every theorem that depends on it, directly or not, counts as failed; a theorem is listed as failed therefore if
its proof no longer goes through or rests on something that does not.  Survivors led to stronger statements (`"tightened"`).
