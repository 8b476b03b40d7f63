(** Specification vocabulary for the hash-to-curve properties (C25-C30), on the integer denoted by a
    byte string. *)
From Verif Require Import Base Constants Group Field Curve EncodingModel HasherModel.

(** Little-endian number of a byte string. *)
Fixpoint number (l : bytes) : Z := match l with [] => 0 | b :: l' => b + 256 * number l' end.

(** [f] is a square root function on a field with multiplication [mul]. *)
Definition sqrt_spec {K} (mul : K -> K -> K) (f : K -> option K) : Prop :=
  forall a, match f a with Some y => mul y y = a | None => forall y, mul y y <> a end.

(** The order by which signs are chosen. *)
Definition le1 (a b : fq) : Prop := fqv a <= fqv b.
Definition le2 (a b : fq2) : Prop :=
  fqv (snd a) < fqv (snd b) \/ (snd a = snd b /\ fqv (fst a) <= fqv (fst b)).

(** The point of G1's curve denoted by a 48-byte number: 377 bits of x, bit 382 the infinity flag
    (only looked at when x = 0), bit [sign_bit] the sign. *)
Definition denotes_g1 (sign_bit : Z) (v : Z) (P : option (fq * fq)) : Prop :=
  let x := v mod 2 ^ 377 in
  let infinity := Z.testbit v 382 in
  x < p /\
  match P with
  | None => x = 0 /\ infinity = true
  | Some (X, Y) =>
    ~ (x = 0 /\ infinity = true) /\ fqv X = x /\ qmul Y Y = qadd (qmul X (qmul X X)) q1 /\
    if Z.testbit v sign_bit then le1 (qopp Y) Y else le1 Y (qopp Y)
  end.
(** The same for the curve of G2 and 96 bytes: two coefficients of 384 bits each. *)
Definition denotes_g2 (sign_bit : Z) (v : Z) (P : option (fq2 * fq2)) : Prop :=
  let c0 := v mod 2 ^ 377 in
  let c1 := (v / 2 ^ 384) mod 2 ^ 377 in
  let infinity := Z.testbit v 766 in
  c0 < p /\ c1 < p /\
  match P with
  | None => c0 = 0 /\ c1 = 0 /\ infinity = true
  | Some (X, Y) =>
    ~ (c0 = 0 /\ c1 = 0 /\ infinity = true) /\ fqv (fst X) = c0 /\ fqv (snd X) = c1 /\
    q2mul Y Y = q2add (q2mul X (q2mul X X)) TWIST_B /\
    if Z.testbit v sign_bit then le2 (q2opp Y) Y else le2 Y (q2opp Y)
  end.

(** The curve group: infinity is the neutral element and [r * cofactor] kills every point. *)
Record curve_group {K} (E : grp) (of_point : apoint K -> E) (cofactor : Z) : Prop := {
  infinity_is_zero : of_point None = gz;
  order_divides : forall P : E, smul (r * cofactor) P = gz
}.

(** The first [len] bytes of [digest] denote a point whose cofactor multiple is [P], not zero. *)
Definition gives {K} (denotes : Z -> option (K * K) -> Prop) {E : grp} (of_point : apoint K -> E) (cofactor : Z)
    (len : nat) (digest : bytes) (P : E) : Prop :=
  exists Q, denotes (number (firstn len digest)) Q /\ P = smul cofactor (of_point Q) /\ P <> gz.

(** Position of the sign bit in the digest, with and without the "compat" feature. *)
Definition g1_sign_bit (compat : bool) : Z := if compat then 377 else 383.
Definition g2_sign_bit (compat : bool) : Z := if compat then 761 else 767.

(** The hasher returns bytes. *)
Definition bytes_hasher (h : hasher) : Prop := forall d m n out,
  (crh h d m n = Ok out -> is_bytes out = true) /\ (xof h d m n = Ok out -> is_bytes out = true).

(** [digest c] is the digest for counter [c]. *)
Section Attempts.
  Context {E : Type} (digest : Z -> result bytes) (len : nat) (good : bytes -> E -> Prop).
  (** there is a digest, and it gives no point *)
  Definition unusable (c : Z) : Prop :=
    exists out, digest c = Ok out /\ (len <= length out)%nat /\ forall P, ~ good out P.
  Definition least_success (P : E) (c : Z) : Prop :=
    0 <= c < 255 /\ (exists out, digest c = Ok out /\ (len <= length out)%nat /\ good out P) /\
    forall c', 0 <= c' < c -> unusable c'.
  Definition first_error (x : bls_error) : Prop :=
    exists c, 0 <= c < 255 /\ digest c = Err x /\ forall c', 0 <= c' < c -> unusable c'.
  Definition no_success : Prop := forall c, 0 <= c < 255 -> unusable c.
End Attempts.
