(** Serialisation of keys and signatures: crates/bls-crypto/src/bls/secret.rs lines 10-12 (derived),
    public.rs lines 123-151, signature.rs lines 31-57, all of which delegate to ark-ec / ark-ff
    ([GroupAffine], [Fp384]/[Fp256], [QuadExtField], [SWFlags]); those are modelled here as well.
    Readers take a byte string and return the value and the unread rest. *)
From Verif Require Import Base Constants Field Curve BlsModel EncodingModel PointModel.

(** ** ark-serialize *)
Inductive sw_flags := Infinity | PosY | NegY.
Definition sw_u8_bitmask (f : sw_flags) : byte := match f with Infinity => 2 ^ 6 | PosY => 2 ^ 7 | NegY => 0 end.
Definition sw_from_u8 (b : byte) : option sw_flags :=
  match Z.testbit b 7, Z.testbit b 6 with
  | false, false => Some NegY
  | false, true => Some Infinity
  | true, false => Some PosY
  | true, true => None
  end.
Definition sw_from_y_sign (is_positive : bool) : sw_flags := if is_positive then PosY else NegY.

(** ** ark-ff *)
Section Fp.
  (** [q]: the modulus, [n]: bytes of the serialised form *)
  Context (q : Z) (n : nat).
  (** [serialize_with_flags]: little-endian, the flags or-ed into the last byte *)
  Definition or_last (l : bytes) (m : byte) : bytes :=
    firstn (length l - 1) l ++ map (fun b => Z.lor b m) (skipn (length l - 1) l).
  Definition fp_write (v : Z) (mask : byte) : bytes := or_last (le_bytes n v) mask.
  (** [deserialize] (no flags): [read_exact], then reject values not below the modulus *)
  Definition fp_read (l : bytes) : option (Z * bytes) :=
    if (length l <? n)%nat then None
    else let v := le_val (firstn n l) in if v <? q then Some (v, skipn n l) else None.
  (** [deserialize_with_flags::<SWFlags>]: the flag bits are removed first *)
  Definition fp_read_flags (l : bytes) : option (Z * sw_flags * bytes) :=
    if (length l <? n)%nat then None
    else
      let b := nth (n - 1) l 0 in
      match sw_from_u8 b with
      | None => None
      | Some f =>
        let b' := Z.land b (255 - sw_u8_bitmask f) in
        let v := le_val (firstn (n - 1) l ++ [b']) in
        if v <? q then Some (v, f, skipn n l) else None
      end.
End Fp.

Definition fq_write (x : fq) (mask : byte) : bytes := fp_write 48 (fqv x) mask.
Definition fq_read (l : bytes) : option (fq * bytes) :=
  match fp_read p 48 l with Some (v, rest) => Some (fq_of v, rest) | None => None end.
Definition fq_read_flags (l : bytes) : option (fq * sw_flags * bytes) :=
  match fp_read_flags p 48 l with Some (v, f, rest) => Some (fq_of v, f, rest) | None => None end.
(** [QuadExtField]: c0, then c1 with the flags *)
Definition fq2_write (x : fq2) (mask : byte) : bytes := fq_write (fst x) 0 ++ fq_write (snd x) mask.
Definition fq2_read (l : bytes) : option (fq2 * bytes) :=
  match fq_read l with
  | None => None
  | Some (c0, l1) => match fq_read l1 with None => None | Some (c1, rest) => Some ((c0, c1), rest) end
  end.
Definition fq2_read_flags (l : bytes) : option (fq2 * sw_flags * bytes) :=
  match fq_read l with
  | None => None
  | Some (c0, l1) => match fq_read_flags l1 with None => None | Some (c1, f, rest) => Some ((c0, c1), f, rest) end
  end.

(** ** ark-ec [GroupAffine] *)
Section Affine.
  Context {K : Type} (kadd kmul : K -> K -> K) (kopp : K -> K) (k0 k1 : K) (kltb : K -> K -> bool) (b : K).
  Context (sqrt : K -> option K).
  Context (write : K -> byte -> bytes) (read : bytes -> option (K * bytes))
          (read_flags : bytes -> option (K * sw_flags * bytes)).
  (** [is_in_correct_subgroup_assuming_on_curve] on the coordinates *)
  Context (in_subgroup : K * K -> bool).

  (** [serialize] *)
  Definition affine_serialize (P : apoint K) : bytes :=
    match P with
    | None => write k0 (sw_u8_bitmask Infinity)
    | Some (x, y) => write x (sw_u8_bitmask (sw_from_y_sign (kltb (kopp y) y)))
    end.
  (** [deserialize]; the error values are all turned into BLSError::SerializationError *)
  Definition affine_deserialize (l : bytes) : result (apoint K) :=
    match read_flags l with
    | None => Err SerializationError
    | Some (x, f, _) =>
      match f with
      | Infinity => Ok None
      | PosY | NegY =>
        match get_point_from_x kadd kmul kopp kltb b sqrt x (match f with PosY => true | _ => false end) with
        | Some (Some (x, y)) => if in_subgroup (x, y) then Ok (Some (x, y)) else Err SerializationError
        | _ => Err SerializationError
        end
      end
    end.
  (** [serialize_uncompressed]; the point at infinity has coordinates (0, 1) *)
  Definition affine_serialize_uncompressed (P : apoint K) : bytes :=
    match P with
    | None => write k0 0 ++ write k1 (sw_u8_bitmask Infinity)
    | Some (x, y) => write x 0 ++ write y (sw_u8_bitmask NegY)
    end.
  (** [deserialize_uncompressed]: the subgroup check assumes, and does not test, that the point is on
      the curve (ark-ec 0.1); [in_subgroup] is applied to whatever coordinates were read. *)
  Definition affine_deserialize_uncompressed (l : bytes) : result (apoint K) :=
    match read l with
    | None => Err SerializationError
    | Some (x, l1) =>
      match read_flags l1 with
      | None => Err SerializationError
      | Some (y, f, _) =>
        match f with
        | Infinity => Ok None
        | _ => if in_subgroup (x, y) then Ok (Some (x, y)) else Err SerializationError
        end
      end
    end.
End Affine.

(** ** bls-crypto *)
(** secret.rs line 11: #[derive(CanonicalSerialize, CanonicalDeserialize)] on PrivateKey(Fr) *)
Definition private_key_serialize (sk : Z) : bytes := fp_write 32 sk 0.
Definition private_key_deserialize (l : bytes) : result Z :=
  match fp_read r 32 l with Some (v, _) => Ok v | None => Err SerializationError end.

(** public.rs lines 123-151 *)
Section PublicKey.
  Context (sqrt : fq2 -> option fq2) (in_subgroup : fq2 * fq2 -> bool).
  Definition public_key_serialize : g2_point -> bytes := affine_serialize q2opp q2_0 q2_ltb fq2_write.
  Definition public_key_deserialize : bytes -> result g2_point :=
    affine_deserialize q2add q2mul q2opp q2_ltb TWIST_B sqrt fq2_read_flags in_subgroup.
  Definition public_key_serialize_uncompressed : g2_point -> bytes := affine_serialize_uncompressed q2_0 q2_1 fq2_write.
  Definition public_key_deserialize_uncompressed : bytes -> result g2_point :=
    affine_deserialize_uncompressed fq2_read fq2_read_flags in_subgroup.
End PublicKey.
(** signature.rs lines 31-57 *)
Section Signature.
  Context (sqrt : fq -> option fq) (in_subgroup : fq * fq -> bool).
  Definition signature_serialize : g1_point -> bytes := affine_serialize qopp q0 q_ltb fq_write.
  Definition signature_deserialize : bytes -> result g1_point :=
    affine_deserialize qadd qmul qopp q_ltb G1_B sqrt fq_read_flags in_subgroup.
  Definition signature_serialize_uncompressed : g1_point -> bytes := affine_serialize_uncompressed q0 q1 fq_write.
  Definition signature_deserialize_uncompressed : bytes -> result g1_point :=
    affine_deserialize_uncompressed fq_read fq_read_flags in_subgroup.
End Signature.
