(** Key generation: crates/bls-crypto/src/bls/secret.rs lines 26-30 and generate_private_key of
    crates/bls-snark-sys/src/signatures.rs lines 15-25.  The random number generator is a stream of u64 values: an argument. *)
From Verif Require Import Base Constants Group Field Curve PointModel CodecModel FfiModel.

(** ark-ff [Distribution<BigInteger256> for Standard]: four u64 limbs, the least significant first *)
Fixpoint limb_value (limbs : list Z) : Z := match limbs with [] => 0 | a :: l => a + 2 ^ 64 * limb_value l end.
(** [REPR_SHAVE_BITS]: 256 minus the 253 bits of the modulus *)
Definition FR_SHAVE_BITS : Z := 3.
(** 2^256 is 1 in Montgomery form; its inverse modulo r *)
Definition MONTGOMERY_INVERSE : Z := 3482466379256973933331601287759811764685972354380176549708408303012390300674.
(** ark-ff [Distribution<Fp256> for Standard], one turn of the loop: mask the top bits, reject unless below the modulus; the
    limbs are the Montgomery form of the result *)
Definition fr_candidate (limbs : list Z) : option Z :=
  let v := limb_value limbs mod 2 ^ (256 - FR_SHAVE_BITS) in
  if v <? r then Some ((v * MONTGOMERY_INVERSE) mod r) else None.
(** the loop; [None]: it is still running after the draws given *)
Fixpoint fr_rand (draws : list (list Z)) : option Z :=
  match draws with
  | [] => None
  | d :: draws' => match fr_candidate d with Some k => Some k | None => fr_rand draws' end
  end.
(** secret.rs lines 28-30 *)
Definition generate (draws : list (list Z)) : option Z := fr_rand draws.
(** generate_private_key, then serialize_private_key *)
Definition c_generate (draws : list (list Z)) : option bytes :=
  match generate draws with
  | None => None
  | Some k => match ffi_serialize private_key_serialize k with Returns true (Some out) => Some (fst out) | _ => None end
  end.
