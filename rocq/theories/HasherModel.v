(** Model of crates/bls-crypto/src/hashers: mod.rs, direct.rs, composite.rs. *)
From Verif Require Import Base BitsModel EncodingModel Blake2.

(** blake2s_simd::Params (version 0.5.11): the fields the code sets.  Key and salt stay empty and
    node_depth stays 0. *)
Record params := mk_params {
  hash_length : Z;
  fanout : Z;
  max_depth : Z;
  max_leaf_length : Z;
  node_offset : Z;
  inner_hash_length : Z;
  personal : bytes
}.

(** The setters assert hash_length in 1..=32, node_offset < 2^48 and personal.len() <= 8. *)
Definition params_ok (q : params) : bool :=
  (1 <=? hash_length q) && (hash_length q <=? 32) && (node_offset q <? 2 ^ 48) &&
  (Z.of_nat (length (personal q)) <=? 8).
(** RFC 7693 section 2.5 / the BLAKE2 paper: 32 bytes; personal is zero-padded to 8 bytes. *)
Definition pad8 (d : bytes) : bytes := firstn 8 (d ++ repeat 0 8).
Definition param_block (q : params) : bytes :=
  [hash_length q; 0; fanout q; max_depth q] ++ le_bytes 4 (max_leaf_length q) ++ le_bytes 6 (node_offset q) ++
  [0; inner_hash_length q] ++ repeat 0 8 ++ pad8 (personal q).
(** [.to_state().update(message).finalize()]; a failed setter assertion is a panic. *)
Definition run_params (q : params) (msg : bytes) : result bytes :=
  if params_ok q then Ok (blake2s (param_block q) msg) else Panic.

(** direct.rs lines 8-18.  [as u16] keeps the low 16 bits; the write cannot fail. *)
Definition xof_digest_length_to_node_offset (offset len : Z) : Z :=
  let l16 := len mod 2 ^ 16 in
  Z.lor (Z.lor offset (Z.shiftl (l16 mod 256) 32)) (Z.shiftl (l16 / 256) 40).

(** direct.rs lines 23-39 *)
Definition crh_params (domain : bytes) (len : Z) : params :=
  mk_params 32 1 1 0 (xof_digest_length_to_node_offset 0 len) 0 domain.
Definition direct_crh (domain msg : bytes) (len : Z) : result bytes := run_params (crh_params domain len) msg.

(** direct.rs lines 41-79 *)
Definition num_hashes (len : Z) : Z := (len + 32 - 1) / 32.
Definition xof_params (domain : bytes) (i len : Z) : params :=
  let hl := if (i =? num_hashes len - 1) && negb (len mod 32 =? 0) then len mod 32 else 32 in
  mk_params hl 0 0 32 (xof_digest_length_to_node_offset i len) 32 domain.
Definition direct_xof (domain hashed : bytes) (len : Z) : result bytes :=
  if 8 <? Z.of_nat (length domain) then Err (DomainTooLarge (Z.of_nat (length domain)))
  else rbind (mapM (fun i => run_params (xof_params domain (Z.of_nat i) len) hashed) (seq 0 (Z.to_nat (num_hashes len))))
             (fun l => Ok (concat l)).

(** A hasher: the two methods of the trait (mod.rs lines 12-31). *)
Record hasher := mk_hasher {
  crh : bytes -> bytes -> Z -> result bytes;
  xof : bytes -> bytes -> Z -> result bytes
}.
(** mod.rs lines 33-41 *)
Definition hash (h : hasher) (domain msg : bytes) (len : Z) : result bytes :=
  rbind (crh h domain msg len) (fun m => xof h domain m len).

Definition direct_hasher : hasher := mk_hasher direct_crh direct_xof.
(** composite.rs lines 80-95; [pedersen] is the Bowe-Hopwood-Pedersen CRH followed by taking and
    serializing the x coordinate, a parameter here and modelled in PedersenModel.v ([composite_crh]). *)
Definition composite_hasher (pedersen : bytes -> result bytes) : hasher :=
  mk_hasher (fun _ msg _ => pedersen msg) direct_xof.

(** composite.rs lines 54-66: the seed of the Pedersen generators. *)
Definition PRNG_PERSONAL : bytes := [85; 76; 95; 112; 114; 110; 103; 115].   (* b"UL_prngs" *)
Definition prng_params : params := mk_params 32 1 1 0 0 0 PRNG_PERSONAL.
(** epoch_block.rs lines 226-233 *)
Definition out_params : params := mk_params 32 1 1 0 0 0 OUT_DOMAIN.
Definition blake2_out (data : bytes) : bytes := blake2s (param_block out_params) data.

(** The parameter blocks that one call of [hash] feeds to BLAKE2s. *)
Definition xof_blocks (domain : bytes) (len : Z) : list bytes :=
  if 8 <? Z.of_nat (length domain) then []
  else map (fun i => param_block (xof_params domain (Z.of_nat i) len)) (seq 0 (Z.to_nat (num_hashes len))).
Definition direct_blocks (domain : bytes) (len : Z) : list bytes :=
  param_block (crh_params domain len) :: xof_blocks domain len.
