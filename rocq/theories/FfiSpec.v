(** Vocabulary for the C interface (C49-C55, C57, C58), without reference to the entry points. *)
From Verif Require Import Base Constants Group Field Curve BlsSpec CacheModel EncodingModel EncodingSpec HashCurveSpec PointProofs CodecSpec.

(** The meaning of the two flags; (composite clear, cip22 set) has none. *)
Inductive selected {H} (direct composite composite_cip22 : H) : bool -> bool -> H -> Prop :=
| sel_direct : selected direct composite composite_cip22 false false direct
| sel_composite : selected direct composite composite_cip22 true false composite
| sel_cip22 : selected direct composite composite_cip22 true true composite_cip22.

(** Random bytes for a batch of [n] pairs: one string per pair, ceil((128 + ceil(log2 n)) / 8) bytes each. *)
Definition strict_draw (n : nat) (rnd : list bytes) : Prop :=
  length rnd = n /\
  Forall (fun x => is_bytes x = true /\ Z.of_nat (length x) = (128 + Z.log2_up (Z.of_nat n) + 7) / 8) rnd.

(** The combined equation of one batch: the random multiples of the keys and of the signatures match. *)
Definition combined_valid {pr} (h : bytes -> bytes -> bytes -> result (G1 pr)) (data extra : bytes)
    (keys : list (G2 pr)) (sigs : list (G1 pr)) (rnd : list bytes) : Prop :=
  exists H, h SIG_DOMAIN data extra = Ok H /\
    signature_on H (lincomb (map bytes_number rnd) keys) (lincomb (map bytes_number rnd) sigs).

(** The [i]-th 96-byte chunk of the memory stands for the key [P]. *)
Definition key_at (in_subgroup : fq2 * fq2 -> bool) (mem : bytes) (i : nat) (P : g2_point) : Prop :=
  wire_g2 (bytes_number (firstn 96 (skipn (96 * i) mem))) P /\ (forall Q, P = Some Q -> in_subgroup Q = true).
Definition valid_key (in_subgroup : fq2 * fq2 -> bool) (P : g2_point) : Prop :=
  forall Q, P = Some Q -> g2_equation Q /\ in_subgroup Q = true.

(** The affine point of a Jacobian triple. *)
Definition jac_point (P : jac fq) : option (fq * fq) :=
  if qeqb (jz P) q0 then None
  else Some (qdiv (jx P) (qmul (jz P) (jz P)), qdiv (jy P) (qmul (jz P) (qmul (jz P) (jz P)))).

(** Memory behind an entropy pointer: null or at least 16 bytes. *)
Definition entropy_ptr (ptr : option bytes) : Prop :=
  match ptr with None => True | Some mem => is_bytes mem = true /\ (16 <= length mem)%nat end.

(** The [i]-th 48-byte little-endian number of a byte string. *)
Definition num48 (i : nat) (l : bytes) : Z := bytes_number (firstn 48 (skipn (48 * i) l)).

(** The two field elements for two 32-byte digests: the bits of both, least significant first, cut after
    376 bits and each part read with its first bit as the most significant one. *)
Definition digest_bits (d : bytes) : list bool := map (fun i => Z.testbit (bytes_number d) (Z.of_nat i)) (seq 0 256).
Definition packed_digests (d1 d2 : bytes) : list Z :=
  let bits := digest_bits d1 ++ digest_bits d2 in [bits_number_be (firstn 376 bits); bits_number_be (skipn 376 bits)].
