(** Model of crates/bls-gadgets/src/hash_to_group.rs and of crates/epoch-snark/src/gadgets/pack.rs.
    A UInt8 variable is the list of its eight bits, least significant first. *)
From Verif Require Import Base Constants Group Field Curve BitsModel EncodingModel Blake2 HasherModel PointModel HashCurveModel Circuit GadgetModel.
Local Open Scope circ_scope.

(** ** Curve points as circuit variables.
    ark-r1cs-std [ProjectiveVar::new_variable_omit_prime_order_check] allocates the coordinates X, Y, Z
    and enforces Z (Y^2 - b Z^2) = X^3.  The library does not force Z to be 0 or 1; [pin] says whether
    the model does ([pin = true] is the behaviour the repository relies on, [pin = false] the library's).
    The triple (0,0,0), which also satisfies the equation, is excluded here. *)
Section Alloc.
  Context {K : Type} (k0 k1 : K) (kadd kmul ksub kdiv : K -> K -> K) (keqb : K -> K -> bool) (b : K) (pin : bool).
  Definition triple : Type := (K * K * K)%type.
  Definition on_projective (t : triple) : bool :=
    let '(X, Y, Z) := t in keqb (kmul Z (ksub (kmul Y Y) (kmul b (kmul Z Z)))) (kmul X (kmul X X)).
  Definition degenerate (t : triple) : bool := let '(X, Y, Z) := t in keqb X k0 && keqb Y k0 && keqb Z k0.
  Definition pinned (t : triple) : bool := let '(X, Y, Z) := t in keqb Z k1 || (keqb X k0 && keqb Y k1 && keqb Z k0).
  Definition valid_triple (t : triple) : bool := on_projective t && negb (degenerate t) && (negb pin || pinned t).
  (** the coordinates the library computes for the honest prover *)
  Definition triple_of (P : apoint K) : triple := match P with Some (x, y) => (x, y, k1) | None => (k0, k1, k0) end.
  Definition affine (t : triple) : apoint K := let '(X, Y, Z) := t in if keqb Z k0 then None else Some (kdiv X Z, kdiv Y Z).
  Definition alloc_point (h : synth (apoint K)) : circ triple :=
    t <- witness (smap triple_of h) ;; enforce (valid_triple t) ;;; Ret t.
End Alloc.
Definition alloc_g1 (pin : bool) : synth (apoint fq) -> circ (@triple fq) := alloc_point q0 q1 qmul qsub qeqb G1_B pin.
Definition alloc_g2 (pin : bool) : synth (apoint fq2) -> circ (@triple fq2) := alloc_point q2_0 q2_1 q2mul q2sub q2eqb TWIST_B pin.
Definition affine1 : @triple fq -> apoint fq := affine q0 qdiv qeqb.
Definition affine2 : @triple fq2 -> apoint fq2 := affine q2_0 q2div q2eqb.

(** [Boolean::enforce_equal] *)
Definition enforce_equal (a b : bool) : circ unit := enforce (Bool.eqb a b).
(** [a.iter().zip(b.iter())] with [enforce_equal] *)
Definition enforce_bits (a b : list bool) : circ unit := ceach (fun '(x, y) => enforce_equal x y) (combine a b).

(** ark-crypto-primitives [Blake2sWithParameterBlock] *)
Record block_params := mk_block_params {
  bp_digest_length : Z; bp_key_length : Z; bp_fan_out : Z; bp_depth : Z; bp_leaf_length : Z; bp_node_offset : Z;
  bp_xof_digest_length : Z; bp_node_depth : Z; bp_inner_length : Z; bp_salt : bytes; bp_personalization : bytes
}.
Definition bp_bytes (q : block_params) : bytes :=
  [bp_digest_length q; bp_key_length q; bp_fan_out q; bp_depth q] ++ le_bytes 4 (bp_leaf_length q) ++
  le_bytes 4 (bp_node_offset q) ++ le_bytes 2 (bp_xof_digest_length q) ++ [bp_node_depth q; bp_inner_length q] ++
  bp_salt q ++ bp_personalization q.
(** hash_to_group.rs lines 57-75 *)
Definition blake2xs_params (hash_length offset : Z) (personalization : bytes) : block_params :=
  mk_block_params 32 0 0 0 32 offset (hash_length / 8) 0 32 (repeat 0 8) personalization.
(** Bits of a byte string, and back ([UInt8::from_bits_le] on full chunks). *)
Definition bits_of_bytes (l : bytes) : list bool := flat_map (byte_bits 8) l.
Definition bytes_of_bits (l : list bool) : bytes := map bits_le_val (chunks 8 l).
(** [evaluate_blake2s_with_parameters]: asserts a whole number of bytes *)
Definition evaluate_blake2s (message : list bool) (q : block_params) : circ (list bool) :=
  if (length message mod 8 =? 0)%nat then Ret (bits_of_bytes (blake2s (bp_bytes q) (bytes_of_bits message))) else panics.

(** lines 192-250.  The honest values of the unconstrained branch come from [DirectHasher.xof]. *)
Definition hash_to_bits (message : list bool) (hash_length : Z) (personalization : bytes) (constrain : bool) : circ (list bool) :=
  if constrain then
    if hash_length mod 256 =? 0 then
      parts <- cmap (fun i => evaluate_blake2s message (blake2xs_params hash_length (Z.of_nat i) personalization))
                    (seq 0 (Z.to_nat (hash_length / 256))) ;;
      Ret (concat parts)
    else panics
  else
    match rbind (bits_le_to_bytes_le message) (fun m => direct_xof personalization m 64) with
    | Ok out => cmap (fun b => new_bool (Val b)) (bytes_le_to_bits_le out 512)
    | _ => panics
    end.

(** lines 39-47 *)
Definition SIGN_BIT_POSITION (compat : bool) : nat := if compat then 377 else 383.
Definition X_BITS : nat := 377.

(** composite.rs lines 80-95: the native Pedersen CRH serializes the same x coordinate (48 bytes). *)
Definition native_ped (ped : bytes -> option fq) (m : bytes) : result bytes :=
  match ped m with Some x => Ok (le_bytes 48 (fqv x)) | None => Panic end.

Section HashToGroup.
  (** [of1]: points of the curve as elements of the group [E1]; [ped]: the x coordinate of the Pedersen
      hash, [None] when the message does not fit its windows; [sqrt]: square roots in F_p. *)
  Context {E1 : grp} (of1 : apoint fq -> E1) (sqrt : fq -> option fq) (ped : bytes -> option fq) (compat pin : bool).

  (** lines 148-177 *)
  Definition pad_byte (l : list bool) : list bool := l ++ repeat false ((8 - length l mod 8) mod 8).
  Definition pedersen_hash (message : list (list bool)) : circ (list bool) :=
    match ped (map bits_le_val message) with
    | Some x => Ret (pad_byte (to_bits_le x))
    | None => panics
    end.
  (** lines 268-291: the witness closure *)
  Definition point_from_bits (x_bits : list bool) (sign : bool) : synth (apoint fq) :=
    match from_repr p (bits_le_val x_bits) with
    | None => Fails AssignmentMissing
    | Some x => match g1_point_from_x sqrt (fq_of x) sign with
                | Some P => Val P
                | None => Fails AssignmentMissing
                end
    end.
  (** lines 256-322; lines 326-341 are the final multiplication *)
  Definition hash_to_group (xof_bits : list bool) : circ E1 :=
    let x_bits := firstn X_BITS xof_bits in
    match nth_error xof_bits (SIGN_BIT_POSITION compat) with
    | None => panics
    | Some sign_bit =>
      t <- alloc_g1 pin (point_from_bits x_bits sign_bit) ;;
      let '(X, Y, _) := t in
      greatest_bit <- g1_y_to_bit Y ;;
      enforce_bits (to_bits_le X) x_bits ;;;
      enforce_equal greatest_bit sign_bit ;;;
      Ret (smul G1_COFACTOR (of1 (affine1 t)))
    end.
  (** lines 105-145 *)
  Definition enforce_hash_to_group (counter : list bool) (message extra_data : list (list bool)) (constrain : bool)
      : circ (E1 * list bool * list bool) :=
    crh_bits <- pedersen_hash message ;;
    let input := counter ++ concat extra_data ++ crh_bits in
    xof_bits <- hash_to_bits input 512 SIG_DOMAIN constrain ;;
    h <- hash_to_group xof_bits ;;
    Ret (h, crh_bits, xof_bits).
End HashToGroup.

(** ** pack.rs lines 14-51 over F_p.  The output is the list of allocated field elements (public inputs
    when [should_alloc_input]). *)
Definition pack_chunk (chunk : list bool) : circ fq :=
  fp <- witness (match from_repr p (from_bits_be chunk) with Some v => Val (fq_of v) | None => Fails AssignmentMissing end) ;;
  if (length chunk <=? MODULUS_BITS)%nat then
    enforce_bits (skipn (MODULUS_BITS - length chunk) (to_bits_be fp)) chunk ;;; Ret fp
  else panics.
Definition multipack (bits : list bool) (element_size : nat) : circ (list fq) :=
  match element_size with
  | O => panics   (* [chunks(0)] *)
  | _ => cmap pack_chunk (chunks element_size bits)
  end.
