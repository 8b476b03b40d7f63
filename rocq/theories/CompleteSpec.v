(** Vocabulary for C80. *)
From Verif Require Import Base Constants Group Field Curve EncodingModel CompleteModel.

Section Represents.
  Context (K : Type) (k0 : K) (kmul : K -> K -> K).
  (** Coordinates of a point: (xZ : yZ : Z) with Z not zero, or (0 : Y : 0) with Y not zero. *)
  Definition represents (q : K * K * K) (P : apoint K) : Prop :=
    let '(X, Y, Z) := q in
    match P with
    | Some (x, y) => Z <> k0 /\ X = kmul x Z /\ Y = kmul y Z
    | None => X = k0 /\ Y <> k0 /\ Z = k0
    end.
  (** A point of order two has the ordinate zero. *)
  Definition order_two (P : apoint K) : Prop := match P with Some (_, y) => y = k0 | None => False end.
End Represents.
(** The value of bits, lowest first. *)
Fixpoint bits_value (l : list bool) : Z := match l with [] => 0 | b :: l => (if b then 1 else 0) + 2 * bits_value l end.
