(** C66: the points of the two curves and their sums.  [chord_sum]: the sum by chords and tangents. *)
From Coq Require Import Permutation.
From Verif Require Import Base Constants Group Field Curve PointModel EncodingModel CurveGroups CurveSpec CurveProofs.

(** the sum is the one by chords and tangents, *)
Theorem C66_g1_chord : forall P Q S, on_g1 P = true -> on_g1 Q = true -> (g1_add P Q = S <-> chord_sum qadd qmul qsub qopp G1_B P Q S).
Proof. exact g1_chord. Qed.
Theorem C66_g2_chord : forall P Q S, on_twist P = true -> on_twist Q = true -> (g2_add P Q = S <-> chord_sum q2add q2mul q2sub q2opp TWIST_B P Q S).
Proof. exact g2_chord. Qed.
(** it makes the points an abelian group, *)
Theorem C66_g1_group : group_law on_g1 None g1_add g1_neg.
Proof. exact g1_law. Qed.
Theorem C66_g2_group : group_law on_twist None g2_add g2_neg.
Proof. exact g2_law. Qed.
(** and the sum of a list does not depend on order or grouping. *)
Theorem C66_g1_sum : g1_sum [] = None /\ (forall P, g1_sum [P] = P) /\ forall l l', Forall (fun P => on_g1 P = true) l -> Forall (fun P => on_g1 P = true) l' ->
  g1_sum (l ++ l') = g1_add (g1_sum l) (g1_sum l') /\ (Permutation l l' -> g1_sum l = g1_sum l').
Proof. split; [reflexivity|]. split; [reflexivity|exact g1_sums]. Qed.
Theorem C66_g2_sum : g2_sum [] = None /\ (forall P, g2_sum [P] = P) /\ forall l l', Forall (fun P => on_twist P = true) l -> Forall (fun P => on_twist P = true) l' ->
  g2_sum (l ++ l') = g2_add (g2_sum l) (g2_sum l') /\ (Permutation l l' -> g2_sum l = g2_sum l').
Proof. split; [reflexivity|]. split; [reflexivity|exact g2_sums]. Qed.
Print Assumptions C66_g1_chord.
Print Assumptions C66_g2_chord.
Print Assumptions C66_g1_group.
Print Assumptions C66_g2_group.
Print Assumptions C66_g1_sum.
Print Assumptions C66_g2_sum.
