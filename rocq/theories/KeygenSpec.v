(** Vocabulary for C73. *)
From Verif Require Import Base.

(** One draw of the random number generator: four u64 values; [n] draws. *)
Definition draw (d : list Z) : Prop := length d = 4%nat /\ Forall (fun a => 0 <= a < 2 ^ 64) d.
Definition draws (n : nat) (l : list (list Z)) : Prop := length l = n /\ Forall draw l.
(** The list holds the [n]-draw strings with the property, each once. *)
Definition lists_all {A} (P : A -> Prop) (L : list A) : Prop := NoDup L /\ forall d, In d L <-> P d.
