(** C66 on the generators. *)
From Coq Require Import Permutation.
From Verif Require Import Base Constants Group Field Curve PointModel EncodingModel CurveGroups CurveSpec PropCurve.

(** The tangent at the generator of G1 and the chord through it and its double. *)
Definition g1_twice : g1_point := g1_add g1_generator g1_generator.
Definition finite {K} (P : apoint K) : bool := match P with Some _ => true | None => false end.
Lemma twice_on : on_g1 g1_twice = true. Proof. apply (proj1 (proj2 C66_g1_group)); exact g1_generator_on. Qed.
Example tangent : chord_sum qadd qmul qsub qopp G1_B g1_generator g1_generator g1_twice /\ finite g1_twice = true.
Proof. split; [exact (proj1 (C66_g1_chord g1_generator g1_generator _ g1_generator_on g1_generator_on) eq_refl)|vm_compute; reflexivity]. Qed.
Example chord : chord_sum qadd qmul qsub qopp G1_B g1_generator g1_twice (g1_add g1_generator g1_twice).
Proof. exact (proj1 (C66_g1_chord g1_generator g1_twice _ g1_generator_on twice_on) eq_refl). Qed.
(** A point of order two. *)
Example two_torsion : let P : g1_point := Some (fq_of (-1), q0) in on_g1 P = true /\ g1_add P P = None.
Proof.
  intros P. assert (H : on_g1 P = true) by (vm_compute; reflexivity). split; [exact H|].
  apply C66_g1_chord; [exact H..|]. left. split; [reflexivity|]. split; [apply fq_ext; vm_compute; reflexivity|reflexivity].
Qed.
(** Three keys, added in another order. *)
Definition g2_twice : g2_point := g2_add g2_generator g2_generator.
Example three_keys : g2_sum [g2_generator; g2_twice; g2_generator] = g2_sum [g2_twice; g2_generator; g2_generator] /\
  g2_sum [g2_generator; g2_twice; g2_generator] = g2_add g2_twice g2_twice.
Proof.
  assert (G : on_twist g2_generator = true) by exact g2_generator_on.
  assert (T : on_twist g2_twice = true) by (apply (proj1 (proj2 C66_g2_group)); exact G).
  assert (F : Forall (fun P => on_twist P = true) [g2_generator; g2_twice; g2_generator]) by (repeat (constructor; [assumption|]); constructor).
  assert (F' : Forall (fun P => on_twist P = true) [g2_twice; g2_generator; g2_generator]) by (repeat (constructor; [assumption|]); constructor).
  destruct C66_g2_sum as (_ & S1 & S). assert (X : g2_sum [g2_generator; g2_twice; g2_generator] = g2_sum [g2_twice; g2_generator; g2_generator]) by (apply (S _ _ F F'), perm_swap).
  split; [exact X|]. rewrite X. change [g2_twice; g2_generator; g2_generator] with ([g2_twice] ++ [g2_generator; g2_generator]).
  rewrite (proj1 (S [g2_twice] [g2_generator; g2_generator] ltac:(repeat (constructor; [assumption|]); constructor) ltac:(repeat (constructor; [assumption|]); constructor))), S1. f_equal.
Qed.
