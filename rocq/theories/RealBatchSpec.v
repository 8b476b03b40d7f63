(** Vocabulary for C72. *)
From Verif Require Import Base Constants Group Field Curve PointModel EncodingModel HashCurveSpec CodecModel CodecSpec FfiSpec CurveGroups OrderSpec TwistSpec RealBatchModel.

(** The bytes begin with an encoding of the point of G2, of G1. *)
Definition key_bytes (l : bytes) (P : g2_point) : Prop := (96 <= length l)%nat /\ wire_g2 (number (firstn 96 l)) P /\ in_g2 P.
Definition sig_bytes (l : bytes) (S : g1_point) : Prop := (48 <= length l)%nat /\ wire_g1 (number (firstn 48 l)) S /\ in_g1 S.
(** The private key of the item's public key and the hash of its message. *)
Definition keyed (hashed : bytes -> bytes -> g1_point -> Prop) (i : item) (k : Z * g1_point) : Prop :=
  0 <= fst k < r /\ hashed (i_msg i) (i_extra i) (snd k) /\ (96 <= length (i_key i))%nat /\ wire_g2 (number (firstn 96 (i_key i))) (g2_times (fst k) g2_generator).
(** The items with the signatures given instead of their own. *)
Definition reassign (l : list item) (sigs : list bytes) : list item := map (fun '(i, s) => Item (i_key i) s (i_msg i) (i_extra i)) (combine l sigs).
(** The pairs looked at: a surplus key or signature is not. *)
Definition pairs (q : lot) : list (bytes * bytes) := combine (l_keys q) (l_sigs q).
(** At least one pair, every pair accepted by itself, and random bytes of the right lengths. *)
Definition good_lot (verify : bytes -> bytes -> bytes -> bytes -> bool -> bool -> option bool) (c f : bool) (q : lot * list bytes) : Prop :=
  l_keys (fst q) <> [] /\ forallb is_bytes (l_keys (fst q)) = true /\ forallb is_bytes (l_sigs (fst q)) = true /\
  Z.of_nat (length (pairs (fst q))) <= usize_max /\ strict_draw (length (pairs (fst q))) (snd q) /\
  Forall2 (fun pk sig => verify pk sig (l_msg (fst q)) (l_extra (fst q)) c f = Some true) (l_keys (fst q)) (l_sigs (fst q)).
