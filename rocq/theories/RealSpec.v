(** The signature scheme on the groups G1 and G2 of BLS12-377 themselves. *)
From Verif Require Import Base Constants Group Field Curve PointModel EncodingModel HasherModel HashCurveModel CurveGroups OrderSpec TwistSpec.

(** What is asked of the pairing: additive in both arguments on G1 x G2, and not zero at the generators. *)
Definition bilinear {GT : grp} (e : g1_point -> g2_point -> GT) : Prop :=
  (forall P P' Q, in_g1 P -> in_g1 P' -> in_g2 Q -> e (g1_add P P') Q = ga (e P Q) (e P' Q)) /\
  (forall P Q Q', in_g1 P -> in_g2 Q -> in_g2 Q' -> e P (g2_add Q Q') = ga (e P Q) (e P Q')) /\
  e g1_generator g2_generator <> gz.
(** [H]: the point of G1 that the flags [composite], [cip22] make of a message (C25 says which point that is). *)
Definition hashed (compat : bool) (ped : bytes -> result bytes) (sqrt : fq -> option fq) (composite cip22 : bool) (d m x : bytes) (H : g1_point) : Prop :=
  exists P c, H = g1_to P /\
    match composite, cip22 with
    | false, false => g1_attempt compat direct_hasher g1_curve g1_of G1_COFACTOR sqrt d m x = Ok (P, c)
    | true, false => g1_attempt compat (composite_hasher ped) g1_curve g1_of G1_COFACTOR sqrt d m x = Ok (P, c)
    | true, true => g1_attempt_cip22 compat (composite_hasher ped) g1_curve g1_of G1_COFACTOR sqrt d m x = Ok (P, c)
    | false, true => False
    end.
