(** The number of points of a curve and the multiples of a point. *)
From Verif Require Import Base Constants Group Field Curve PointModel EncodingModel CurveGroups.

(** [n] times the point [P]. *)
Fixpoint times {A} (add : A -> A -> A) (zero : A) (n : nat) (P : A) : A :=
  match n with O => zero | S n' => add P (times add zero n' P) end.
(** [n] elements satisfy [on]. *)
Definition has_points {A} (on : A -> bool) (n : Z) : Prop :=
  exists l : list A, NoDup l /\ (forall P, In P l <-> on P = true) /\ Z.of_nat (length l) = n.
(** The points of G1: the multiples of the generator. *)
Definition g1_times (k : Z) (P : g1_point) : g1_point := times g1_add None (Z.to_nat k) P.
Definition in_g1 (P : g1_point) : Prop := exists k, 0 <= k < r /\ P = g1_times k g1_generator.
(** The subgroup test: [r] times the point is the point at infinity ([is_in_correct_subgroup_assuming_on_curve] of ark-ec). *)
Definition g1_test (Q : fq * fq) : bool := geqb (smul r (g1_of (Some Q))) gz.
