(** Model of crates/epoch-snark/src/encoding.rs and crates/epoch-snark/src/epoch_block.rs.
    Writing to a Vec never fails, so the Result wrappers carry no error; the only non-value outcome is
    the u8 overflow that [bits_be_to_bytes_le] could have (see BitsModel). *)
From Verif Require Import Base Constants Field Curve BitsModel.

(** [Fq::write]: the canonical integer as 6 little-endian 64-bit limbs, i.e. 48 little-endian bytes. *)
Fixpoint le_bytes (n : nat) (v : Z) : bytes :=
  match n with O => [] | S n' => v mod 256 :: le_bytes n' (v / 256) end.

(** Affine coordinates as [into_affine] returns them. *)
Definition coords := (fq2 * fq2)%type.
(** [GroupAffine::zero()], what [into_affine] gives for the point at infinity: (0, 1). *)
Definition infinity_coords : coords := (q2_0, q2_1).

(** encoding.rs lines 30-32 *)
Definition is_over_half (y : fq2) : bool :=
  (half <? fqv (snd y)) || ((fqv (snd y) =? 0) && (half <? fqv (fst y))).
(** [FqParameters::MODULUS_BITS] *)
Definition MODULUS_BITS : nat := 377.
Definition FQ_BYTES : nat := 48.
(** encoding.rs lines 34-46 (two coefficients of x, most significant bit first, then the sign) *)
Definition encode_coords (c : coords) : list bool :=
  let (x, y) := c in
  bytes_le_to_bits_be (le_bytes FQ_BYTES (fqv (fst x))) MODULUS_BITS ++
  bytes_le_to_bits_be (le_bytes FQ_BYTES (fqv (snd x))) MODULUS_BITS ++ [is_over_half y].

(** encoding.rs lines 50-79: [((x & 2^i) >> i) == 1] for the eight bits of every little-endian byte. *)
Definition bits_of_byte (x : Z) : list bool :=
  map (fun i => Z.shiftr (Z.land x (2 ^ Z.of_nat i)) (Z.of_nat i) =? 1) (seq 0 8).
Definition encode_u8 (n : Z) : list bool := flat_map bits_of_byte [n].
Definition encode_u16 (n : Z) : list bool := flat_map bits_of_byte (le_bytes 2 n).
Definition encode_u32 (n : Z) : list bool := flat_map bits_of_byte (le_bytes 4 n).

(** epoch_block.rs lines 33-53 *)
Record epoch_block (K : Type) := mk_block {
  eb_index : Z;
  eb_round : Z;
  eb_epoch_entropy : option bytes;
  eb_parent_entropy : option bytes;
  eb_max_non_signers : Z;
  eb_max_validators : Z;
  eb_keys : list K
}.
Arguments mk_block {K}.
Arguments eb_index {K}. Arguments eb_round {K}. Arguments eb_epoch_entropy {K}. Arguments eb_parent_entropy {K}.
Arguments eb_max_non_signers {K}. Arguments eb_max_validators {K}. Arguments eb_keys {K}.

(** lines 11-14 *)
Inductive epoch_type := First | Last.

Definition ENTROPY_BYTES : nat := 16.

Section Block.
  (** [K]: public keys; [coords_of]: [into_affine]; [agg]: [PublicKey::aggregate]; [gen]: the G2 generator. *)
  Context {K : Type} (coords_of : K -> coords) (agg : list K -> K) (gen : K).

  (** encoding.rs lines 23-47 *)
  Definition encode_public_key (k : K) : list bool := encode_coords (coords_of k).

  (** epoch_block.rs lines 142-149 *)
  Definition encode_entropy (e : option bytes) : list bool :=
    bytes_le_to_bits_le (match e with Some e => e | None => repeat 0 (ENTROPY_BYTES * 8) end) (ENTROPY_BYTES * 8).

  (** lines 128-138 and 161-169: the keys, then generator keys up to maximum_validators *)
  Definition encode_keys_padded (b : epoch_block K) : list bool :=
    flat_map encode_public_key (eb_keys b) ++
    (let n := Z.of_nat (length (eb_keys b)) in
     if n <? eb_max_validators b
     then flat_map (fun _ => encode_public_key gen) (seq 0 (Z.to_nat (eb_max_validators b - n)))
     else []).

  (** lines 106-114 *)
  Definition encode_to_bits (b : epoch_block K) : list bool :=
    encode_u16 (eb_index b) ++ encode_u32 (eb_max_non_signers b) ++ flat_map encode_public_key (eb_keys b).
  (** lines 117-140 *)
  Definition encode_to_bits_cip22 (b : epoch_block K) (t : epoch_type) : list bool :=
    encode_u16 (eb_index b) ++
    match t with
    | First => encode_entropy (eb_parent_entropy b)
    | Last => encode_entropy (eb_epoch_entropy b)
    end ++ encode_u32 (eb_max_non_signers b) ++ encode_keys_padded b.
  (** lines 152-171: (epoch bits, extra data bits) *)
  Definition encode_inner_to_bits_cip22 (b : epoch_block K) : list bool * list bool :=
    (encode_entropy (eb_epoch_entropy b) ++ encode_entropy (eb_parent_entropy b) ++ encode_keys_padded b,
     encode_u16 (eb_index b) ++ encode_u8 (eb_round b) ++ encode_u32 (eb_max_non_signers b)).
  (** lines 174-181 *)
  Definition encode_last_to_bits_with_agg (b : epoch_block K) : list bool :=
    encode_to_bits_cip22 b Last ++ encode_public_key (agg (eb_keys b)).

  (** lines 184-211 *)
  Definition encode_first_epoch_to_bytes_cip22 (b : epoch_block K) : result bytes :=
    bits_be_to_bytes_le (encode_to_bits_cip22 b First).
  Definition encode_to_bytes (b : epoch_block K) : result bytes := bits_be_to_bytes_le (encode_to_bits b).
  Definition encode_last_epoch_to_bytes_with_aggregated_pk_cip22 (b : epoch_block K) : result bytes :=
    bits_be_to_bytes_le (encode_last_to_bits_with_agg b).
  Definition encode_inner_to_bytes_cip22 (b : epoch_block K) : result (bytes * bytes) :=
    let (inner, extra) := encode_inner_to_bits_cip22 b in
    rbind (bits_be_to_bytes_le inner) (fun i => rbind (bits_be_to_bytes_le extra) (fun e => Ok (i, e))).

  (** lines 226-236 and 90-103, 216-223, over the 32-byte BLAKE2s digest [blake2_out]
      (hash_length 32, personal OUT_DOMAIN; see Blake2.v for the executable function) *)
  Context (blake2_out : bytes -> bytes).
  Definition hash_to_bits (data : bytes) : list bool := bytes_le_to_bits_le (blake2_out data) 256.
  Definition blake2_first_epoch (b : epoch_block K) : result (list bool) :=
    rbind (encode_first_epoch_to_bytes_cip22 b) (fun e => Ok (hash_to_bits e)).
  Definition blake2_last_epoch (b : epoch_block K) : result (list bool) :=
    rbind (encode_last_epoch_to_bytes_with_aggregated_pk_cip22 b) (fun e => Ok (hash_to_bits e)).
  Definition hash_first_last_epoch_block (first last : epoch_block K) : result (list bool) :=
    rbind (blake2_first_epoch first) (fun h1 => rbind (blake2_last_epoch last) (fun h2 => Ok (h1 ++ h2))).

  (** crates/epoch-snark/src/api/verifier.rs lines 29-33: the public inputs
      ([Fr] there is the scalar field of BW6-761, which is [Fq] of BLS12-377; CAPACITY = 376).
      [None] from [pack] is Err(CannotRepresent). *)
  Definition CAPACITY : nat := 376.
  Definition public_inputs (first last : epoch_block K) : result (option (list Z)) :=
    rbind (hash_first_last_epoch_block first last) (fun h => Ok (pack p CAPACITY h)).
End Block.

(** ** The real keys: points of the twist y^2 = x^3 + 1/u over F_p2 (ark-bls12-377 g2.rs) *)
Definition TWIST_B : fq2 :=
  q2_of (0, 155198655607781456406391640216936120121836107652948796323930557600032281009004493664981332883744016074664192874906).
Definition g2_point := apoint fq2.
Definition on_twist : g2_point -> bool := on_curve fq2 q2add q2mul q2eqb TWIST_B.
Definition g2_add : g2_point -> g2_point -> g2_point := ec_add fq2 q2_0 q2_1 q2add q2mul q2sub q2div q2eqb.
(** [PublicKey::aggregate], crates/bls-crypto/src/bls/public.rs lines 41-48 *)
Definition g2_sum : list g2_point -> g2_point := ec_sum fq2 q2_0 q2_1 q2add q2mul q2sub q2div q2eqb.
Definition g2_neg : g2_point -> g2_point := ec_neg fq2 q2opp.
Definition g2_coords (P : g2_point) : coords := match P with Some c => c | None => infinity_coords end.
Definition g2_generator : g2_point := Some
  (q2_of (233578398248691099356572568220835526895379068987715365179118596935057653620464273615301663571204657964920925606294,
          140913150380207355837477652521042157274541796891053068589147167627541651775299824604154852141315666357241556069118),
   q2_of (63160294768292073209381361943935198908131692476676907196754037919244929611450776219210369229519898517858833747423,
          149157405641012693445398062341192467754805999074082136895788947234480009303640899064710353187729182149407503257491)).
