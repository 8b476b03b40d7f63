(** What the hash-to-group gadget and the packing gadget should establish. *)
From Verif Require Import Base Constants Group Field Curve BitsModel EncodingModel HashCurveSpec CodecSpec GadgetSpec.

(** The point of the curve selected by the number [v] of a digest: abscissa in bits 0-376, sign in
    bit [sign_bit]. *)
Definition selected (sign_bit v : Z) (Q : fq * fq) : Prop :=
  g1_equation Q /\ fqv (fst Q) = v mod 2 ^ 377 /\ (Z.testbit v sign_bit = true <-> larger1 (snd Q)).
(** [l] holds the bits of the bytes [bs], least significant bit of every byte first. *)
Definition bits_are (l : list bool) (bs : bytes) : Prop :=
  l = flat_map (fun b => map (fun i => Z.testbit b (Z.of_nat i)) (seq 0 8)) bs.
(** A UInt8 variable. *)
Definition u8_var (l : list bool) : Prop := length l = 8%nat.
(** Homogeneous coordinates (X : Y : Z) of an affine point, Z not zero. *)
Definition same_point (X Y Z : fq) (Q : fq * fq) : Prop := Z <> q0 /\ X = qmul (fst Q) Z /\ Y = qmul (snd Q) Z.
