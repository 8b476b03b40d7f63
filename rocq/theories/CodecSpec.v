(** Specification vocabulary for C30: the wire format of signatures (points of the curve of G1) and
    public keys (points of the curve of G2), as numbers. *)
From Verif Require Import Base Constants Field Curve EncodingModel HashCurveSpec.

(** The coordinates satisfy the curve equations. *)
Definition g1_equation (Q : fq * fq) : Prop := qmul (snd Q) (snd Q) = qadd (qmul (fst Q) (qmul (fst Q) (fst Q))) q1.
Definition g2_equation (Q : fq2 * fq2) : Prop :=
  q2mul (snd Q) (snd Q) = q2add (q2mul (fst Q) (q2mul (fst Q) (fst Q))) TWIST_B.

(** The 48-byte number [v] stands for [P]: bits 0-376 the abscissa, bit 382 infinity, bit 383 the
    greater of the two ordinates. The abscissa accompanying the infinity bit is arbitrary. *)
Definition wire_g1 (v : Z) (P : option (fq * fq)) : Prop :=
  match P with
  | None => exists x, 0 <= x < p /\ v = x + 2 ^ 382
  | Some (X, Y) => g1_equation (X, Y) /\ (v = fqv X /\ le1 Y (qopp Y) \/ v = fqv X + 2 ^ 383 /\ le1 (qopp Y) Y)
  end.
(** The same for 96 bytes: the two coefficients of the abscissa take 48 bytes each. *)
Definition wire_g2 (v : Z) (P : option (fq2 * fq2)) : Prop :=
  match P with
  | None => exists x0 x1, 0 <= x0 < p /\ 0 <= x1 < p /\ v = x0 + 2 ^ 384 * x1 + 2 ^ 766
  | Some (X, Y) => g2_equation (X, Y) /\
    (v = fqv (fst X) + 2 ^ 384 * fqv (snd X) /\ le2 Y (q2opp Y) \/
     v = fqv (fst X) + 2 ^ 384 * fqv (snd X) + 2 ^ 767 /\ le2 (q2opp Y) Y)
  end.
