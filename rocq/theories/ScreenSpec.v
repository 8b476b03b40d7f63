(** Vocabulary for C84: the parts that the items of a batch play, and what is computed from an accepted batch. *)
From Verif Require Import Base Constants Group Field Curve PointModel EncodingModel HasherModel CodecSpec CurveGroups OrderSpec TwistSpec RealBatchModel RealBatchSpec ReductionSpec.

Inductive part :=
| Unsigned (k : Z)           (** the honest key, a message whose signature was not given away; it hashes to k times Y *)
| Signed (k : Z)             (** the honest key, a message whose signature was given away; it hashes to k times the generator *)
| Proved (o : owner) (k : Z) (** another's key with a proof of possession, a message that hashes to k times Y *)
| Known (s : Z) (H : g1_point). (** a key with the known private key s, a message that hashes to H *)
(** [hash]: the point that message and extra data give, [proof]: the proof of possession was accepted. *)
Definition plays (hash : bytes -> bytes -> g1_point -> Prop) (proof : owner -> Prop) (A : g2_point) (Y : g1_point) (i : item) (q : part) : Prop :=
  match q with
  | Unsigned k => key_bytes (i_key i) A /\ 0 <= k /\ hash (i_msg i) (i_extra i) (g1_times k Y)
  | Signed k => key_bytes (i_key i) A /\ 0 <= k /\ hash (i_msg i) (i_extra i) (g1_times k g1_generator)
  | Proved o k => key_bytes (i_key i) (o_point o) /\ proof o /\ 0 <= k /\ hash (i_msg i) (i_extra i) (g1_times k Y)
  | Known s H => key_bytes (i_key i) (g2_times s g2_generator) /\ 0 <= s /\ hash (i_msg i) (i_extra i) H
  end.
(** What an item that is not a forgery adds to the sum of the signatures, computed from B, the honest private key times the generator of G1. *)
Definition share (B : g1_point) (q : part) : g1_point :=
  match q with
  | Unsigned _ => None
  | Signed k => g1_times k B
  | Proved o k => g1_times k (divided (o_factor o) (o_proof o))
  | Known s H => g1_times s H
  end.
Definition unsigned (q : part) : Z := match q with Unsigned k => k | _ => 0 end.
Definition weight (qs : list part) : Z := fold_right Z.add 0 (map unsigned qs) mod r.
(** The sum of the signatures less the shares, divided. *)
Definition screened (B : g1_point) (Ss : list g1_point) (qs : list part) : g1_point :=
  divided (weight qs) (g1_add (g1_sum Ss) (g1_neg (g1_sum (map (share B) qs)))).
