(** Vocabulary for C75. *)
From Verif Require Import Base Constants Group Field Curve PointModel EncodingModel CurveGroups OrderSpec TwistSpec.

(** [R]: the key that makes the sum with the keys [Ps] the public key of [k]; no private key of [Ps] or [R] enters. *)
Definition rogue (k : Z) (Ps : list g2_point) (R : g2_point) : Prop := in_g2 R /\ g2_add R (fold_right g2_add None Ps) = g2_times k g2_generator.
(** [T] and [S] together are the signature of [k] on the point [H]. *)
Definition complement (k : Z) (H S T : g1_point) : Prop := in_g1 T /\ g1_add T S = g1_times k H.
