(** The points of G2: the multiples of the generator. *)
From Verif Require Import Base Constants Group Field Curve PointModel EncodingModel CurveGroups OrderSpec.

Definition g2_times (k : Z) (P : g2_point) : g2_point := times g2_add None (Z.to_nat k) P.
Definition in_g2 (P : g2_point) : Prop := exists k, 0 <= k < r /\ P = g2_times k g2_generator.
(** The subgroup test: [r] times the point is the point at infinity ([is_in_correct_subgroup_assuming_on_curve] of ark-ec). *)
Definition g2_test (Q : fq2 * fq2) : bool := geqb (smul r (g2_of (Some Q))) gz.
