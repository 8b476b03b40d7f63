(** Points as the circuit computes with them: projective coordinates (X : Y : Z) and complete formulas.  The circuit allocates keys, signatures and hashes without
    checking that they lie in the prime-order groups (crates/epoch-snark/src/gadgets/epoch_data.rs lines 189-194, epochs.rs lines 304-308,
    crates/bls-gadgets/src/hash_to_group.rs lines 266-271), so the formulas meet every point of the curves.
    The formulas are those of ark-r1cs-std (a dependency, groups/curves/short_weierstrass/mod.rs): Renes, Costello and Batina, Algorithms 1 and 3, for a = 0;
    intermediate values are not shared here as they are there. *)
From Verif Require Import Base Constants Group Field Curve EncodingModel PointModel HashCurveModel Circuit.
Local Open Scope circ_scope.

Section Projective.
  Context (K : Type) (k0 k1 : K) (kadd kmul ksub : K -> K -> K) (keqb : K -> K -> bool) (b : K).
  Notation "x +! y" := (kadd x y) (at level 50, left associativity).
  Notation "x *! y" := (kmul x y) (at level 40, left associativity).
  Notation "x -! y" := (ksub x y) (at level 50, left associativity).
  Definition proj : Type := (K * K * K)%type.
  Definition k3 : K := k1 +! (k1 +! k1).
  (** [zero] *)
  Definition p_zero : proj := (k0, k1, k0).
  (** [+=] *)
  Definition p_add (P Q : proj) : proj :=
    let '(X1, Y1, Z1) := P in let '(X2, Y2, Z2) := Q in
    let xy := X1 *! Y2 +! X2 *! Y1 in let xz := X1 *! Z2 +! X2 *! Z1 in let yz := Y1 *! Z2 +! Y2 *! Z1 in
    let b3 := k3 *! b in let zz := b3 *! (Z1 *! Z2) in
    let plus := Y1 *! Y2 +! zz in let minus := Y1 *! Y2 -! zz in let xx3 := k3 *! (X1 *! X2) in
    (minus *! xy -! b3 *! (xz *! yz), plus *! minus +! xx3 *! (b3 *! xz), plus *! yz +! xy *! xx3).
  (** [double_in_place] *)
  Definition p_double (P : proj) : proj :=
    let '(X, Y, Z) := P in
    let b3 := k3 *! b in let zz := b3 *! (Z *! Z) in let yy := Y *! Y in
    let minus := yy -! k3 *! zz in let two v := v +! v in
    (two (X *! Y *! minus), minus *! (yy +! zz) +! two (two (two (zz *! yy))), two (two (two (yy *! Y *! Z)))).
  (** [is_eq] *)
  Definition p_is_eq (P Q : proj) : bool :=
    let '(X1, Y1, Z1) := P in let '(X2, Y2, Z2) := Q in
    (keqb Z1 k0 && keqb Z2 k0) || (keqb (X1 *! Z2) (X2 *! Z1) && keqb (Y1 *! Z2) (Y2 *! Z1)).
  (** [scalar_mul_le]: the sum with the current multiple is computed whether or not the bit selects it *)
  Fixpoint p_mul_loop (bits : list bool) (res multiple : proj) : proj :=
    match bits with
    | [] => res
    | bit :: bits => let tmp := p_add res multiple in p_mul_loop bits (if bit then tmp else res) (p_double multiple)
    end.
  Definition p_mul_le (bits : list bool) (P : proj) : proj := p_mul_loop bits p_zero P.

  (** crates/bls-gadgets/src/bls.rs lines 137-155 and 160-171 on coordinates *)
  Fixpoint p_aggregate_loop (keys_bits : list (proj * bool)) (padding acc : proj) : circ proj :=
    match keys_bits with
    | [] => Ret acc
    | (pk, bit) :: rest =>
      enforce (negb (p_is_eq pk padding && bit)) ;;;
      let adder := if bit then pk else p_zero in
      p_aggregate_loop rest padding (p_add acc adder)
    end.
  Definition p_aggregate_all (keys : list proj) : proj := fold_left p_add keys p_zero.
  (** epochs.rs lines 267-269: [mul_by_inverse] twice; the inverse is a witness *)
  Context (kinv : K -> K).
  Definition p_mul_by_inverse (x z : K) : circ K :=
    i <- witness (Val (kinv z)) ;;
    enforce (keqb (z *! i) k1) ;;;
    Ret (x *! i).
  Definition p_to_affine (P : proj) : circ (K * K) :=
    let '(X, Y, Z) := P in
    x <- p_mul_by_inverse X Z ;;
    y <- p_mul_by_inverse Y Z ;;
    Ret (x, y).
End Projective.
(** The two curves. *)
Definition g1_p_add := p_add fq q1 qadd qmul qsub G1_B.
Definition g1_p_double := p_double fq q1 qadd qmul qsub G1_B.
Definition g1_p_mul_le := p_mul_le fq q0 q1 qadd qmul qsub G1_B.
Definition g2_p_add := p_add fq2 q2_1 q2add q2mul q2sub TWIST_B.
Definition g2_p_double := p_double fq2 q2_1 q2add q2mul q2sub TWIST_B.
Definition g2_p_is_eq := p_is_eq fq2 q2_0 q2mul q2eqb.
Definition g2_p_aggregate_loop := p_aggregate_loop fq2 q2_0 q2_1 q2add q2mul q2sub q2eqb TWIST_B.
Definition g2_p_aggregate_all := p_aggregate_all fq2 q2_0 q2_1 q2add q2mul q2sub TWIST_B.
Definition g2_p_to_affine := p_to_affine fq2 q2_1 q2mul q2eqb q2inv.
(** crates/bls-gadgets/src/hash_to_group.rs lines 326-341: the bits of the two 64-bit limbs of the cofactor, lowest first *)
Definition cofactor_bits : list bool := map (fun i => Z.testbit G1_COFACTOR (Z.of_nat i)) (seq 0 128).
Definition g1_p_scale_by_cofactor (P : proj fq) : proj fq := g1_p_mul_le cofactor_bits P.
