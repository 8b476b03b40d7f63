(** Specification vocabulary for C87. *)
From Verif Require Import Base.

(** Exactly [n] values satisfy [Q]. *)
Definition counted {A} (Q : A -> Prop) (n : Z) : Prop :=
  exists L : list A, NoDup L /\ (forall a, In a L <-> Q a) /\ Z.of_nat (length L) = n.
