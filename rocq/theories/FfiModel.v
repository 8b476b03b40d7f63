(** Model of crates/bls-snark-sys/src: the C entry points.

    A pointer argument stands for the object or the bytes it points to; null is [None] where the code
    tests for it.  [slice::from_raw_parts] on memory that is not there, negative lengths and freed
    pointers are undefined behaviour and are not modelled here.  Allocation ([Box::into_raw], [mem::forget])
    has no effect besides the stored value; MemoryModel.v has the heap.  Logging is not modelled. *)
From Verif Require Import Base Constants Group Field Curve BlsModel CacheModel BitsModel EncodingModel HasherModel PointModel
  HashCurveModel CodecModel.

(** What the caller observes: the returned bool and what was stored through the out pointers ([None]:
    they were not written), or a panic that does not stop at the language boundary. *)
Inductive reply (A : Type) := Returns (b : bool) (out : option A) | Panics.
Arguments Returns {A}. Arguments Panics {A}.

(** lib.rs lines 21-27.  The closure is its stores and its result. *)
Definition convert_result_to_bool {A} (f : option A * result unit) : reply A :=
  match f with
  | (out, Ok _) => Returns true out
  | (out, Err _) => Returns false out
  | (_, Panic) => Panics
  end.
(** A closure body [let v = x?; *out = v; Ok(())] *)
Definition store {A} (x : result A) : option A * result unit :=
  match x with Ok v => (Some v, Ok tt) | Err e => (None, Err e) | Panic => (None, Panic) end.
(** [Result::is_ok] (a panic propagates) *)
Definition to_is_ok {A} (x : result A) : result bool :=
  match x with Ok _ => Ok true | Err _ => Ok false | Panic => Panic end.

(** [usize as c_int] *)
Definition as_c_int (n : Z) : Z := (n + 2 ^ 31) mod 2 ^ 32 - 2 ^ 31.
(** A vector returned through (pointer, length). *)
Definition out_vec (l : bytes) : bytes * Z := (l, as_c_int (Z.of_nat (length l))).

(** ** signatures.rs *)
Section Signatures.
  Context {pr : pairing}.
  Notation G1 := (G1 pr). Notation G2 := (G2 pr).
  (** DIRECT_HASH_TO_G1, COMPOSITE_HASH_TO_G1, COMPOSITE_HASH_TO_G1_CIP22 *)
  Context (direct composite composite_cip22 : BlsModel.hasher pr).

  (** lines 27-41 *)
  Definition ffi_private_key_to_public_key (sk : Z) : reply G2 :=
    convert_result_to_bool (store (Ok (to_public sk))).
  (** lines 43-71 *)
  Definition ffi_sign_message (sk : Z) (message extra : bytes) (use_composite use_cip22 : bool) : reply G1 :=
    convert_result_to_bool (store
      match use_composite, use_cip22 with
      | true, true => outcome (sign composite_cip22 sk message extra)
      | false, true => Err HashToCurveError
      | true, false => outcome (sign composite sk message extra)
      | false, false => outcome (sign direct sk message extra)
      end).
  (** lines 73-90 *)
  Definition ffi_sign_pop (sk : Z) (message : bytes) : reply G1 :=
    convert_result_to_bool (store (outcome (sign_pop direct sk message))).
  (** lines 243-277 *)
  Definition ffi_verify_signature (pk : G2) (message extra : bytes) (sig : G1) (use_composite use_cip22 : bool) : reply bool :=
    convert_result_to_bool (store
      match use_composite, use_cip22 with
      | true, true => to_is_ok (outcome (verify composite_cip22 pk message extra sig))
      | false, true => Err HashToCurveError
      | true, false => to_is_ok (outcome (verify composite pk message extra sig))
      | false, false => to_is_ok (outcome (verify direct pk message extra sig))
      end).
  (** lines 406-425 *)
  Definition ffi_verify_pop (pk : G2) (message : bytes) (sig : G1) : reply bool :=
    convert_result_to_bool (store (to_is_ok (outcome (verify_pop direct pk message sig)))).

  (** utils.rs lines 22-46: [MessageFFI] after the conversion to [Message] *)
  Record message := Msg { m_data : bytes; m_extra : bytes; m_key : G2; m_sig : G1 }.
  (** lines 279-333 *)
  Definition ffi_batch_verify_signature (ms : list message) (use_composite use_cip22 : bool) : reply bool :=
    let asig := aggregate_sig (map m_sig ms) in
    let pubkeys := map m_key ms in
    let messages := map (fun m => (m_data m, m_extra m)) ms in
    convert_result_to_bool (store
      match use_composite, use_cip22 with
      | true, true => to_is_ok (outcome (batch_verify composite_cip22 asig pubkeys SIG_DOMAIN messages))
      | false, true => Err HashToCurveError
      | true, false => to_is_ok (outcome (batch_verify composite asig pubkeys SIG_DOMAIN messages))
      | false, false => to_is_ok (outcome (batch_verify direct asig pubkeys SIG_DOMAIN messages))
      end).

  (** utils.rs lines 58-74: [BatchMessageFFI] with its arrays read *)
  Record batch_message := BMsg { bm_data : bytes; bm_extra : bytes; bm_keys : list G2; bm_sigs : list G1 }.
  (** lines 360-385: the zip stops at the shorter array *)
  Definition strict_context (b : batch_message) : batch pr :=
    fold_left (fun c '(pk, sig) => batch_add c pk sig) (combine (bm_keys b) (bm_sigs b)) (batch_new (bm_data b) (bm_extra b)).
  (** lines 387-392; [rnd]: the random bytes drawn by [Batch::verify] *)
  Definition strict_slot (use_composite use_cip22 : bool) (b : batch_message) (rnd : list bytes) : result bool :=
    let context := strict_context b in
    match use_composite, use_cip22 with
    | true, true => to_is_ok (outcome (batch_verify_random composite_cip22 context rnd))
    | false, true => Ok false
    | true, false => to_is_ok (outcome (batch_verify_random composite context rnd))
    | false, false => to_is_ok (outcome (batch_verify_random direct context rnd))
    end.
  (** lines 354-398: the loop over the batches; the slots written so far and [all_valid] *)
  Fixpoint strict_loop (use_composite use_cip22 : bool) (bs : list (batch_message * list bytes)) (results : list bool)
      (all_valid : bool) : result (list bool * bool) :=
    match bs with
    | [] => Ok (results, all_valid)
    | (b, rnd) :: bs' =>
      rbind (strict_slot use_composite use_cip22 b rnd) (fun result =>
        strict_loop use_composite use_cip22 bs' (results ++ [result]) (if negb result then false else all_valid))
    end.
  (** lines 335-404 *)
  Definition ffi_batch_verify_strict (bs : list (batch_message * list bytes)) (use_composite use_cip22 : bool) : reply (list bool) :=
    convert_result_to_bool
      match strict_loop use_composite use_cip22 bs [] true with
      | Ok (results, all_valid) => (Some results, if negb all_valid then Err VerificationFailed else Ok tt)
      | Err e => (None, Err e)
      | Panic => (None, Panic)
      end.
  (** lines 484-505 *)
  Definition ffi_aggregate_signatures (sigs : list G1) : reply G1 :=
    convert_result_to_bool (store (Ok (aggregate_sig sigs))).
End Signatures.
Arguments message pr : clear implicits.
Arguments batch_message pr : clear implicits.

(** The calls on the global cache (cache.rs), with the lock held throughout (CacheModel.v has the
    interleavings).  lock().expect("mutex poisoned") cannot fail: no call panics while holding it. *)
Section Cache.
  Context {E : cenv}.
  Notation rep := (jac (F E)).
  (** signatures.rs lines 427-451 *)
  Definition ffi_aggregate_public_keys (o1 o2 : order E) (c : cache E) (keys : list rep) : cache E * reply (PG E) :=
    let '(c', agg) := cache_aggregate o1 o2 c keys in (c', convert_result_to_bool (store (Ok agg))).
  (** signatures.rs lines 453-482 *)
  Definition ffi_aggregate_public_keys_subtract (o1 o2 : order E) (c : cache E) (agg : rep) (keys : list rep) : cache E * reply (PG E) :=
    let '(c', sub) := cache_aggregate o1 o2 c keys in (c', convert_result_to_bool (store (Ok (pt agg - sub)%G))).
  (** serialization.rs lines 43-60 *)
  Definition ffi_deserialize_public_key_cached (c : cache E) (data : bytes) : cache E * reply rep :=
    let '(c', key) := cache_deserialize c data in (c', convert_result_to_bool (store key)).
End Cache.

(** ** The hash functions, signatures.rs lines 92-241 *)
(** ark-ec [ToBytes for GroupAffine]: x, y and the infinity flag; ark-ff [ToBytes for Fp384] is
    [fq_write] without flags.  The affine point at infinity is (0, 1). *)
Definition g1_affine_write (P : g1_point) : bytes :=
  match P with
  | None => fq_write q0 0 ++ fq_write q1 0 ++ [1]
  | Some (x, y) => fq_write x 0 ++ fq_write y 0 ++ [0]
  end.
(** [ToBytes for GroupProjective]: x, y, z *)
Definition g1_projective_write (P : jac fq) : bytes := fq_write (jx P) 0 ++ fq_write (jy P) 0 ++ fq_write (jz P) 0.
Section Hashes.
  (** [E]: the curve group whose elements are held as Jacobian triples [rep_of]; [affine_of]: into_affine *)
  Context (E : grp) (of_point : g1_point -> E) (sqrt : fq -> option fq) (affine_of : E -> g1_point) (rep_of : E -> jac fq).
  Context (pedersen : bytes -> result bytes).
  Notation composite_hasher := (composite_hasher pedersen).
  Definition ffi_domain (use_pop : bool) : bytes := if use_pop then POP_DOMAIN else SIG_DOMAIN.
  (** lines 92-115 *)
  Definition ffi_hash_direct (msg : bytes) (use_pop : bool) : reply (bytes * Z) :=
    convert_result_to_bool (store
      (rbind (g1_hash true direct_hasher E of_point G1_COFACTOR sqrt (ffi_domain use_pop) msg []) (fun P =>
       Ok (out_vec (g1_affine_write (affine_of P)))))).
  (** lines 117-142 *)
  Definition ffi_hash_direct_with_attempt (msg : bytes) (use_pop : bool) : reply (bytes * Z * Z) :=
    convert_result_to_bool (store
      (rbind (g1_attempt true direct_hasher E of_point G1_COFACTOR sqrt (ffi_domain use_pop) msg []) (fun '(P, c) =>
       Ok (out_vec (g1_affine_write (affine_of P)), as_c_int c)))).
  (** lines 144-167 *)
  Definition ffi_hash_composite (msg extra : bytes) : reply (bytes * Z) :=
    convert_result_to_bool (store
      (rbind (g1_hash true composite_hasher E of_point G1_COFACTOR sqrt SIG_DOMAIN msg extra) (fun P =>
       Ok (out_vec (g1_projective_write (rep_of P)))))).
  (** lines 215-241 *)
  Definition ffi_hash_composite_cip22 (msg extra : bytes) : reply (bytes * Z * Z) :=
    convert_result_to_bool (store
      (rbind (g1_attempt_cip22 true composite_hasher E of_point G1_COFACTOR sqrt SIG_DOMAIN msg extra) (fun '(P, c) =>
       Ok (out_vec (g1_projective_write (rep_of P)), c mod 256)))).
  (** lines 169-190 *)
  Definition ffi_hash_crh (msg : bytes) (hash_bytes : Z) : reply (bytes * Z) :=
    convert_result_to_bool (store (rbind (crh composite_hasher SIG_DOMAIN msg hash_bytes) (fun l => Ok (out_vec l)))).
  (** lines 192-213 *)
  Definition ffi_hash_direct_first_step (msg : bytes) (hash_bytes : Z) : reply (bytes * Z) :=
    convert_result_to_bool (store (rbind (hash direct_hasher SIG_DOMAIN msg hash_bytes) (fun l => Ok (out_vec l)))).
End Hashes.

(** ** serialization.rs *)
Section Serialization.
  (** lines 107-122, 124-142 and 144-162 *)
  Definition ffi_deserialize {T} (deserialize : bytes -> result T) (data : bytes) : reply T :=
    convert_result_to_bool (store (deserialize data)).
  Definition ffi_serialize {T} (serialize : T -> bytes) (x : T) : reply (bytes * Z) :=
    convert_result_to_bool (store (Ok (out_vec (serialize x)))).
  (** [&l[a..b]] *)
  Definition slice (a b : nat) (l : bytes) : result bytes :=
    if (b <=? length l)%nat then Ok (firstn (b - a) (skipn a l)) else Panic.
  (** [T::read(..).unwrap()] *)
  Definition read_unwrap {T} (x : option (T * bytes)) : result T :=
    match x with Some (v, _) => Ok v | None => Panic end.
  (** lines 166-189; [G1Affine::new(x, y, false)] checks nothing, into_projective and back is the identity *)
  Definition ffi_compress_signature (data : bytes) : reply (bytes * Z) :=
    convert_result_to_bool (store
      (rbind (rbind (slice 0 48 data) (fun l => read_unwrap (fq_read l))) (fun x =>
       rbind (rbind (slice 48 96 data) (fun l => read_unwrap (fq_read l))) (fun y =>
       Ok (out_vec (signature_serialize (Some (x, y)))))))).
  (** lines 191-216 *)
  Definition ffi_compress_pubkey (data : bytes) : reply (bytes * Z) :=
    convert_result_to_bool (store
      (rbind (rbind (slice 0 96 data) (fun l => read_unwrap (fq2_read l))) (fun x =>
       rbind (rbind (slice 96 192 data) (fun l => read_unwrap (fq2_read l))) (fun y =>
       Ok (out_vec (public_key_serialize (Some (x, y)))))))).
End Serialization.

(** ** utils.rs lines 84-103: [Buffer]; taking the address of element 0 of an empty slice panics *)
Definition buffer_from (l : bytes) : result bytes := match l with [] => Panic | _ => Ok l end.
(** lines 48-56 *)
Definition message_ffi_from {pr} (m : message pr) : result (message pr) :=
  rbind (buffer_from (m_data m)) (fun d => rbind (buffer_from (m_extra m)) (fun x => Ok (Msg d x (m_key m) (m_sig m)))).

(** ** snark/epoch_block.rs *)
Definition PUBKEY_BYTES : Z := 96.
Section EpochBlock.
  Context (sqrt : fq2 -> option fq2) (in_subgroup : fq2 * fq2 -> bool).
  (** lines 198-210; the memory behind a non-null pointer *)
  Definition read_epoch_entropy (ptr : option bytes) : option bytes :=
    match ptr with None => None | Some mem => Some (firstn ENTROPY_BYTES mem) end.
  (** lines 16-66 *)
  Definition ffi_encode_epoch_block_to_bytes_cip22 (index round : Z) (epoch_entropy parent_entropy : option bytes)
      (max_non_signers max_validators : Z) (keys : list g2_point) : reply ((bytes * Z) * (bytes * Z)) :=
    convert_result_to_bool (store
      (rbind (encode_inner_to_bytes_cip22 g2_coords g2_generator
                (mk_block index round (read_epoch_entropy epoch_entropy) (read_epoch_entropy parent_entropy)
                   max_non_signers max_validators keys)) (fun '(inner, extra) =>
       Ok (out_vec inner, out_vec extra)))).
  (** lines 68-105 *)
  Definition ffi_encode_epoch_block_to_bytes (index max_non_signers : Z) (keys : list g2_point) : reply (bytes * Z) :=
    convert_result_to_bool (store
      (rbind (encode_to_bytes g2_coords
                (mk_block index 0 None None max_non_signers (Z.of_nat (length keys)) keys)) (fun l => Ok (out_vec l)))).

  (** lines 173-179 *)
  Definition serialize_pubkeys (keys : list g2_point) : bytes := flat_map public_key_serialize keys.
  (** lines 162-171: the slice of num * PUBKEY_BYTES bytes; the multiplication wraps (release profile) *)
  Definition read_serialized_pubkeys (mem : bytes) (num : Z) : bytes :=
    firstn (Z.to_nat ((num * PUBKEY_BYTES) mod 2 ^ 64)) mem.
  (** lines 189-194: [G2Affine::deserialize] advances the slice by the bytes it has read *)
  Fixpoint read_keys (data : bytes) (n : nat) : result (list g2_point) :=
    match n with
    | O => Ok []
    | S n' =>
      rbind (public_key_deserialize sqrt in_subgroup data) (fun key =>
      rbind (read_keys (skipn 96 data) n') (fun keys => Ok (key :: keys)))
    end.
  (** lines 187-196 *)
  Definition read_pubkeys (mem : bytes) (num : Z) : result (list g2_point) :=
    read_keys (read_serialized_pubkeys mem num) (Z.to_nat num).

  (** lines 107-128 *)
  Record epoch_block_ffi := EpochBlockFFI {
    ef_index : Z; ef_round : Z; ef_epoch_entropy : option bytes; ef_parent_entropy : option bytes;
    ef_pubkeys : bytes; ef_pubkeys_num : Z; ef_max_non_signers : Z; ef_max_validators : Z }.
  (** lines 130-146 *)
  Definition epoch_block_try_from (src : epoch_block_ffi) : result (epoch_block g2_point) :=
    rbind (read_pubkeys (ef_pubkeys src) (ef_pubkeys_num src)) (fun pubkeys =>
    Ok (mk_block (ef_index src) (ef_round src) (read_epoch_entropy (ef_epoch_entropy src))
          (read_epoch_entropy (ef_parent_entropy src)) (ef_max_non_signers src) (ef_max_validators src) pubkeys)).

  (** ** snark/mod.rs lines 23-45 and epoch-snark/src/api/verifier.rs lines 24-42.
      Groth16 (prepare_verifying_key, verify_proof) and the decoders of its keys and proofs are oracles;
      the error types are all mapped to false by the caller and are not told apart. *)
  Context {vkey proof : Type} (vk_deserialize : bytes -> result vkey) (proof_deserialize : bytes -> result proof).
  Context (verify_proof : vkey -> proof -> list Z -> result bool) (blake2_out : bytes -> bytes).
  Definition snark_verify (vk : vkey) (first last : epoch_block g2_point) (pf : proof) : result unit :=
    rbind (public_inputs g2_coords g2_sum g2_generator blake2_out first last) (fun packed =>
    match packed with
    | None => Err SerializationError
    | Some inputs => rbind (verify_proof vk pf inputs) (fun ok => if ok then Ok tt else Err VerificationFailed)
    end).
  Definition ffi_verify (vk pf : bytes) (first_epoch last_epoch : epoch_block_ffi) : reply unit :=
    convert_result_to_bool (None,
      rbind (epoch_block_try_from first_epoch) (fun first =>
      rbind (epoch_block_try_from last_epoch) (fun last =>
      rbind (vk_deserialize vk) (fun vk =>
      rbind (proof_deserialize pf) (fun pf => snark_verify vk first last pf))))).
End EpochBlock.
