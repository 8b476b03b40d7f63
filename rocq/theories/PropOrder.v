(** C68: the number of points of the curve of G1 and the subgroup of order r.  [g1_times k P]: k additions of P. *)
From Verif Require Import Base Constants Group Field Curve PointModel EncodingModel HasherModel HashCurveModel HashCurveSpec CodecModel CodecSpec CurveGroups CurveOrder CurveCount OrderSpec OrderProofs.

(** The curve has r h points, h the cofactor of the code; *)
Theorem C68_g1_points : has_points on_g1 (r * G1_COFACTOR).
Proof. exact g1_points. Qed.
(** those that r kills are the multiples of the generator, r of them; *)
Theorem C68_g1_subgroup : forall P, on_g1 P = true -> (in_g1 P <-> g1_times r P = None).
Proof. exact g1_subgroup. Qed.
Theorem C68_g1_generates : forall k k', 0 <= k < r -> 0 <= k' < r -> g1_times k g1_generator = g1_times k' g1_generator -> k = k'.
Proof. exact g1_unique. Qed.
(** multiplying any point by the cofactor leads there. *)
Theorem C68_g1_cofactor : forall P, on_g1 P = true -> in_g1 (g1_times G1_COFACTOR P).
Proof. exact g1_clears. Qed.
(** So what C26 asks of the curve holds, and hashing gives a multiple of the generator other than infinity, *)
Theorem C68_g1_curve_group : curve_group g1_curve g1_of G1_COFACTOR.
Proof. exact g1_cofactor. Qed.
Theorem C68_hash_to_g1 : forall compat h sqrt d m x P c, bytes_hasher h -> sqrt_spec qmul sqrt ->
  g1_attempt compat h g1_curve g1_of G1_COFACTOR sqrt d m x = Ok (P, c) \/ g1_attempt_cip22 compat h g1_curve g1_of G1_COFACTOR sqrt d m x = Ok (P, c) ->
  in_g1 (g1_to P) /\ g1_to P <> None.
Proof. exact hash_in_g1. Qed.
(** and the signatures read are the encodings of multiples of the generator. *)
Theorem C68_signature_accepts : forall sqrt l P, sqrt_spec qmul sqrt -> is_bytes l = true ->
  signature_deserialize sqrt g1_test l = Ok P <-> (48 <= length l)%nat /\ wire_g1 (number (firstn 48 l)) P /\ in_g1 P.
Proof. exact signature_in_g1. Qed.
Print Assumptions C68_g1_points.
Print Assumptions C68_g1_subgroup.
Print Assumptions C68_g1_generates.
Print Assumptions C68_g1_cofactor.
Print Assumptions C68_g1_curve_group.
Print Assumptions C68_hash_to_g1.
Print Assumptions C68_signature_accepts.
