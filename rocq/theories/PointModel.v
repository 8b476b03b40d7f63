(** Byte strings to field elements and curve points: crates/bls-crypto/src/hash_to_curve/mod.rs lines
    76-157 and the parts of ark-ff / ark-ec it calls (from_random_bytes_with_flags, get_point_from_x). *)
From Verif Require Import Base Constants Field Curve BlsModel EncodingModel.

(** ** mod.rs lines 76-144 *)
Inductive y_sign_flags := PositiveY (infinity : bool) | NegativeY (infinity : bool).
(** lines 85-91 *)
Definition from_y_sign (is_positive : bool) : y_sign_flags :=
  if is_positive then PositiveY false else NegativeY false.
(** lines 94-99 *)
Definition ysf_is_infinity (f : y_sign_flags) : bool :=
  match f with PositiveY true | NegativeY true => true | _ => false end.
(** lines 102-107 *)
Definition ysf_is_positive (f : y_sign_flags) : option bool :=
  match f with PositiveY _ => Some true | NegativeY _ => Some false end.
(** lines 110-116 *)
Definition ysf_default : y_sign_flags := NegativeY false.
(** line 119 *)
Definition YSF_BIT_SIZE : Z := 2.
(** lines 122-133 *)
Definition ysf_u8_bitmask (f : y_sign_flags) : byte :=
  let mask := match f with PositiveY true | NegativeY true => Z.lor 0 (Z.shiftl 1 6) | _ => 0 end in
  match f with PositiveY _ => Z.lor mask (Z.shiftl 1 7) | _ => mask end.
(** lines 136-143 *)
Definition ysf_from_u8 (value : byte) : option y_sign_flags :=
  let x_sign := Z.land (Z.shiftr value 7) 1 =? 1 in
  let is_infinity := Z.land (Z.shiftr value 6) 1 =? 1 in
  if x_sign then Some (PositiveY is_infinity) else Some (NegativeY is_infinity).

(** ** ark-ff *)
(** [u8::MAX.checked_shl(8 - BIT_SIZE).unwrap_or(0)] *)
Definition flags_mask (bit_size : Z) : byte := Z.shiftl 255 (8 - bit_size) mod 256.
(** [Fq::from_random_bytes_with_flags::<F>] with [F::BIT_SIZE = bit_size] in 0..=7: copy into a zeroed
    49-byte buffer, take the flag bits of byte 47, mask the last limb to the bits of the modulus,
    reject values not below the modulus.  The flag byte is returned raw. *)
Definition fq_from_random_bytes (bit_size : Z) (l : bytes) : option (fq * byte) :=
  let buf := firstn 49 (l ++ repeat 0 49) in
  let flags := Z.land (nth 47 buf 0) (flags_mask bit_size) in
  let v := (le_val (firstn 48 buf)) mod 2 ^ Z.of_nat MODULUS_BITS in
  if v <? p then Some (fq_of v, flags) else None.
(** [QuadExtField::from_random_bytes_with_flags]: first half without flags, second half with. *)
Definition fq2_from_random_bytes (bit_size : Z) (l : bytes) : option (fq2 * byte) :=
  let split_at := Nat.div (length l) 2 in
  match fq_from_random_bytes 0 (firstn split_at l) with
  | None => None
  | Some (c0, _) =>
    match fq_from_random_bytes bit_size (skipn split_at l) with
    | None => None
    | Some (c1, f) => Some ((c0, c1), f)
    end
  end.

(** [Ord] of the base fields: canonical integers for Fq; c1 first, then c0, for Fq2. *)
Definition q_ltb (a b : fq) : bool := fqv a <? fqv b.
Definition q2_ltb (a b : fq2) : bool :=
  q_ltb (snd a) (snd b) || (qeqb (snd a) (snd b) && q_ltb (fst a) (fst b)).

Section Points.
  (** The base field, its order and square root, and the coefficient of the curve y^2 = x^3 + b. *)
  Context {K : Type} (kadd kmul : K -> K -> K) (kopp : K -> K) (k0 : K) (keqb kltb : K -> K -> bool) (b : K).
  Context (sqrt : K -> option K).
  Context (from_random : Z -> bytes -> option (K * byte)).

  (** ark-ec [GroupAffine::get_point_from_x] (a = 0 for both curves) *)
  Definition get_point_from_x (x : K) (greatest : bool) : option (apoint K) :=
    match sqrt (kadd (kmul (kmul x x) x) b) with
    | None => None
    | Some y => let negy := kopp y in
                Some (Some (x, if xorb (kltb y negy) greatest then y else negy))
    end.

  (** mod.rs lines 146-157 *)
  Definition from_random_bytes (l : bytes) : option (apoint K) :=
    match from_random YSF_BIT_SIZE l with
    | None => None
    | Some (x, byte) =>
      match ysf_from_u8 byte with
      | None => None
      | Some flags =>
        if keqb x k0 && ysf_is_infinity flags then Some None
        else match ysf_is_positive flags with
             | Some y_is_positive => get_point_from_x x y_is_positive
             | None => None
             end
      end
    end.
End Points.

(** ** The two curves *)
(** ark-bls12-377 g1.rs: y^2 = x^3 + 1 *)
Definition G1_B : fq := q1.
Definition g1_point := apoint fq.
Definition on_g1 : g1_point -> bool := on_curve fq qadd qmul qeqb G1_B.
Definition g1_neg : g1_point -> g1_point := ec_neg fq qopp.
Definition g1_point_from_x (sqrt : fq -> option fq) := get_point_from_x qadd qmul qopp q_ltb G1_B sqrt.
Definition g1_from_random_bytes (sqrt : fq -> option fq) :=
  from_random_bytes qadd qmul qopp q0 qeqb q_ltb G1_B sqrt fq_from_random_bytes.
Definition g2_point_from_x (sqrt : fq2 -> option fq2) := get_point_from_x q2add q2mul q2opp q2_ltb TWIST_B sqrt.
Definition g2_from_random_bytes (sqrt : fq2 -> option fq2) :=
  from_random_bytes q2add q2mul q2opp q2_0 q2eqb q2_ltb TWIST_B sqrt fq2_from_random_bytes.
(** [serialized_size] of a compressed point *)
Definition G1_BYTES : nat := 48.
Definition G2_BYTES : nat := 96.
