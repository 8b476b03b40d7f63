(** The sum of two points of a curve y^2 = x^3 + b by chords and tangents. *)
From Verif Require Import Base Constants Group Field Curve PointModel EncodingModel.

Section Chord.
  Context {K : Type} (kadd kmul ksub : K -> K -> K) (kopp : K -> K) (b : K).
  (** The line y = l x + m meets the curve at the abscissas [x1], [x2] and [x3], with multiplicities. *)
  Definition meets (l m x1 x2 x3 : K) : Prop :=
    forall X, ksub (kadd (kmul X (kmul X X)) b) (kmul (kadd (kmul l X) m) (kadd (kmul l X) m)) =
              kmul (ksub X x1) (kmul (ksub X x2) (ksub X x3)).
  (** [S] is the sum of [P] and [Q]: the reflection of the third point on the line through them (the tangent if they are
      the same point), or the point at infinity if they are reflections of each other. *)
  Definition chord_sum (P Q S : apoint K) : Prop :=
    match P, Q with
    | None, _ => S = Q
    | _, None => S = P
    | Some (x1, y1), Some (x2, y2) =>
      (x1 = x2 /\ y2 = kopp y1 /\ S = None) \/
      (~ (x1 = x2 /\ y2 = kopp y1) /\ exists l m x3, y1 = kadd (kmul l x1) m /\ y2 = kadd (kmul l x2) m /\ meets l m x1 x2 x3 /\
         S = Some (x3, kopp (kadd (kmul l x3) m)))
    end.
End Chord.

(** The points of a curve form an abelian group. *)
Definition group_law {A} (on : A -> bool) (zero : A) (add : A -> A -> A) (neg : A -> A) : Prop :=
  on zero = true /\ (forall P Q, on P = true -> on Q = true -> on (add P Q) = true) /\ (forall P, on P = true -> on (neg P) = true) /\
  (forall P, on P = true -> add zero P = P /\ add P zero = P) /\
  (forall P, on P = true -> add P (neg P) = zero /\ add (neg P) P = zero) /\
  (forall P Q, on P = true -> on Q = true -> add P Q = add Q P) /\
  (forall P Q S, on P = true -> on Q = true -> on S = true -> add P (add Q S) = add (add P Q) S).
