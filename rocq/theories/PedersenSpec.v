(** What the Bowe-Hopwood-Pedersen hash should compute, independently of the code's lists of bits and points. *)
From Verif Require Import Base Group Curve Edwards HashCurveSpec.

(** A chunk of three bits, as a number t below 8, stands for the digit 1, 2, 3, 4 (its low two bits) with the sign
    given by its high bit. *)
Definition digit (t : Z) : Z := (1 + t mod 4) * (if 4 <=? t then -1 else 1).
(** The number of chunks of a message of [n] bytes: 8 n bits, rounded up to a multiple of three. *)
Definition chunk_count (n : nat) : nat := (8 * n + 2) / 3.
(** Chunk [k] of the message whose little-endian value is [v]. *)
Definition chunk (v : Z) (k : nat) : Z := (v / 8 ^ Z.of_nat k) mod 8.
(** The scalar of window [i]: its (at most 93) digits in base 16. *)
Definition coefficient (m : bytes) (i : nat) : Z :=
  fold_right (fun j acc => digit (chunk (number m) (93 * i + j)) + 16 * acc) 0
    (seq 0 (Nat.min 93 (chunk_count (length m) - 93 * i))).
(** The linear combination of the bases with integer scalars. *)
Fixpoint combination (ks : list Z) (Bs : list ed_grp) : ed_grp :=
  match ks, Bs with
  | k :: ks', B :: Bs' => ga (smul k B) (combination ks' Bs')
  | _, _ => gz
  end.
Definition coefficients (m : bytes) : list Z := map (coefficient m) (seq 0 560).
(** A non-trivial relation between the bases, with scalars below 2^373 in absolute value (less than the 374-bit
    prime order of the subgroup the bases live in). *)
Definition relation (ds : list Z) (Bs : list ed_grp) : Prop :=
  length ds = 560%nat /\ Exists (fun d => d <> 0) ds /\ Forall (fun d => Z.abs d < 2 ^ 373) ds /\ combination ds Bs = gz.
(** The generators of one window: base, 16 base, 256 base, ... *)
Definition window_of (B : ed_grp) (gens : list (fq * fq)) : Prop :=
  length gens = 93%nat /\ forall j, (j < 93)%nat -> nth j gens ed_zero = edp (smul (16 ^ Z.of_nat j) B).
