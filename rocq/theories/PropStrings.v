(** C87: how many byte strings of the right length are read as private keys, public keys and signatures, with the subgroup tests of the library.
    [counted Q n]: exactly n values satisfy Q. *)
From Verif Require Import Base Constants Group Field Curve BlsModel PointModel CacheModel CacheSpec EncodingModel HashCurveSpec CodecModel CodecSpec FfiModel CurveGroups OrderSpec TwistSpec RealSpec RealModel StringsSpec StringsProofs StringsUse.

(** Of the strings of 32 bytes r are private keys, zero among them. *)
Theorem C87_private_keys : counted (fun l => (length l = 32%nat /\ is_bytes l = true) /\ exists sk, private_key_deserialize l = Ok sk) r.
Proof. exact private_strings. Qed.
(** Of the strings of 48 bytes r - 1 + p are signatures, *)
Theorem C87_signatures : forall sqrt, sqrt_spec qmul sqrt ->
  counted (fun l => (length l = 48%nat /\ is_bytes l = true) /\ exists P, signature_deserialize sqrt g1_test l = Ok P) (r - 1 + p).
Proof. exact signature_strings. Qed.
(** p of them the point at infinity, *)
Theorem C87_infinite_signatures : forall sqrt, sqrt_spec qmul sqrt ->
  counted (fun l => (length l = 48%nat /\ is_bytes l = true) /\ signature_deserialize sqrt g1_test l = Ok None) p.
Proof. exact signature_infinity. Qed.
(** and one each of the other multiples of the generator. *)
Theorem C87_one_string_per_signature : forall sqrt, sqrt_spec qmul sqrt -> forall k, 0 < k < r ->
  exists l, ((length l = 48%nat /\ is_bytes l = true) /\ signature_deserialize sqrt g1_test l = Ok (g1_times k g1_generator)) /\
    forall l', length l' = 48%nat -> is_bytes l' = true -> signature_deserialize sqrt g1_test l' = Ok (g1_times k g1_generator) -> l' = l.
Proof. exact signature_string. Qed.
(** Of the strings of 96 bytes r - 1 + p^2 are public keys, *)
Theorem C87_public_keys : forall sqrt, sqrt_spec q2mul sqrt ->
  counted (fun l => (length l = 96%nat /\ is_bytes l = true) /\ exists P, public_key_deserialize sqrt g2_test l = Ok P) (r - 1 + p * p).
Proof. exact key_strings. Qed.
(** p^2 of them the point at infinity, *)
Theorem C87_infinite_public_keys : forall sqrt, sqrt_spec q2mul sqrt ->
  counted (fun l => (length l = 96%nat /\ is_bytes l = true) /\ public_key_deserialize sqrt g2_test l = Ok None) (p * p).
Proof. exact key_infinity. Qed.
(** and one for each private key but zero. *)
Theorem C87_one_string_per_key : forall sqrt, sqrt_spec q2mul sqrt -> forall sk, 0 < sk < r ->
  exists l, ((length l = 96%nat /\ is_bytes l = true) /\ public_key_deserialize sqrt g2_test l = Ok (g2_times sk g2_generator)) /\
    forall l', length l' = 96%nat -> is_bytes l' = true -> public_key_deserialize sqrt g2_test l' = Ok (g2_times sk g2_generator) -> l' = l.
Proof. exact key_string. Qed.
(** So under the public key of a private key other than zero exactly one string of 48 bytes is accepted as the signature on a message, *)
Theorem C87_one_accepted : forall (GT : grp) (e : g1_point -> g2_point -> GT) (L : bilinear e) compat ped sqrt sqrt2,
  (forall m out, ped m = Ok out -> is_bytes out = true) -> sqrt_spec qmul sqrt -> sqrt_spec q2mul sqrt2 ->
  forall pk m x c f H sk, is_bytes pk = true -> 0 <= sk < r -> public_key_deserialize sqrt2 g2_test pk = Ok (g2_times sk g2_generator) ->
  hashed compat ped sqrt c f SIG_DOMAIN m x H -> sk <> 0 ->
  counted (fun sig => (length sig = 48%nat /\ is_bytes sig = true) /\ c_verify GT e L compat ped sqrt sqrt2 pk sig m x c f = Some true) 1.
Proof. exact one_accepted. Qed.
(** and under each string of the neutral key p strings are, the same for every message. *)
Theorem C87_neutral_accepted : forall (GT : grp) (e : g1_point -> g2_point -> GT) (L : bilinear e) compat ped sqrt sqrt2,
  (forall m out, ped m = Ok out -> is_bytes out = true) -> sqrt_spec qmul sqrt -> sqrt_spec q2mul sqrt2 ->
  forall pk m x c f H sk, is_bytes pk = true -> 0 <= sk < r -> public_key_deserialize sqrt2 g2_test pk = Ok (g2_times sk g2_generator) ->
  hashed compat ped sqrt c f SIG_DOMAIN m x H -> sk = 0 ->
  counted (fun sig => (length sig = 48%nat /\ is_bytes sig = true) /\ c_verify GT e L compat ped sqrt sqrt2 pk sig m x c f = Some true) p.
Proof. exact neutral_accepted. Qed.

Print Assumptions C87_private_keys.
Print Assumptions C87_signatures.
Print Assumptions C87_infinite_signatures.
Print Assumptions C87_one_string_per_signature.
Print Assumptions C87_public_keys.
Print Assumptions C87_infinite_public_keys.
Print Assumptions C87_one_string_per_key.
Print Assumptions C87_one_accepted.
Print Assumptions C87_neutral_accepted.
