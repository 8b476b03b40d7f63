(** C69: the number of points of the twist and its subgroup of order r, G2.  [g2_times k P]: k additions of P. *)
From Verif Require Import Base Constants Group Field Curve PointModel EncodingModel HasherModel HashCurveModel HashCurveSpec CodecModel CodecSpec CurveGroups TwistOrder TwistCount OrderSpec TwistSpec TwistProofs.

(** The twist has r h points, h the cofactor of the code; *)
Theorem C69_g2_points : has_points on_twist (r * G2_COFACTOR).
Proof. exact g2_points. Qed.
(** those that r kills are the multiples of the generator, r of them; *)
Theorem C69_g2_subgroup : forall P, on_twist P = true -> (in_g2 P <-> g2_times r P = None).
Proof. exact g2_subgroup. Qed.
Theorem C69_g2_generates : forall k k', 0 <= k < r -> 0 <= k' < r -> g2_times k g2_generator = g2_times k' g2_generator -> k = k'.
Proof. exact g2_unique. Qed.
(** multiplying any point by the cofactor leads there. *)
Theorem C69_g2_cofactor : forall P, on_twist P = true -> in_g2 (g2_times G2_COFACTOR P).
Proof. exact g2_clears. Qed.
(** So what C26 asks of the curve holds, and hashing to G2 gives a multiple of the generator other than infinity, *)
Theorem C69_g2_curve_group : curve_group g2_curve g2_of G2_COFACTOR.
Proof. exact g2_cofactor. Qed.
Theorem C69_hash_to_g2 : forall compat h sqrt d m x P c, bytes_hasher h -> sqrt_spec q2mul sqrt ->
  g2_attempt compat h g2_curve g2_of G2_COFACTOR sqrt d m x = Ok (P, c) \/ g2_attempt_cip22 compat h g2_curve g2_of G2_COFACTOR sqrt d m x = Ok (P, c) ->
  in_g2 (g2_to P) /\ g2_to P <> None.
Proof. exact hash_in_g2. Qed.
(** and the public keys read are the encodings of multiples of the generator: each accepted key belongs to exactly one private key. *)
Theorem C69_public_key_accepts : forall sqrt l P, sqrt_spec q2mul sqrt -> is_bytes l = true ->
  public_key_deserialize sqrt g2_test l = Ok P <-> (96 <= length l)%nat /\ wire_g2 (number (firstn 96 l)) P /\ in_g2 P.
Proof. exact key_in_g2. Qed.
Print Assumptions C69_g2_points.
Print Assumptions C69_g2_subgroup.
Print Assumptions C69_g2_generates.
Print Assumptions C69_g2_cofactor.
Print Assumptions C69_g2_curve_group.
Print Assumptions C69_hash_to_g2.
Print Assumptions C69_public_key_accepts.
