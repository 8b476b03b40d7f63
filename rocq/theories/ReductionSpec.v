(** Vocabulary for C81: what the makers of accepted signatures could compute.
    The problem: given a public key A, that is a times the generator of G2, a times the generator of G1, and a point Y of G1, find a times Y. *)
From Coq Require Import Zpow_facts.
From Verif Require Import Base Constants Group Field Curve PointModel EncodingModel HasherModel CodecSpec CurveGroups OrderSpec TwistSpec RealBatchSpec.

Definition answers (A : g2_point) (Y X : g1_point) : Prop := exists a, 0 <= a < r /\ A = g2_times a g2_generator /\ X = g1_times a Y.
(** Division by a number modulo the group order. *)
Definition inverse (k : Z) : Z := Zpow_mod k (r - 2) r.
Definition divided (k : Z) (S : g1_point) : g1_point := g1_times (inverse k) S.

(** A key with a proof of its possession, as bytes and as points; the message of the proof hashes to [o_factor] times Y. *)
Record owner := mk_owner { o_key : bytes; o_point : g2_point; o_pop : bytes; o_proof : g1_point; o_msg : bytes; o_factor : Z }.
(** The aggregate signature divided, less the proofs divided: no private key enters. *)
Definition extracted (k : Z) (S : g1_point) (others : list owner) : g1_point :=
  g1_add (divided k S) (g1_neg (fold_right g1_add None (map (fun o => divided (o_factor o) (o_proof o)) others))).
(** The proof was accepted; [hash]: the point that the flags, domain, message and extra data give, [verify_pop]: the answer of the C function. *)
Definition proved (hash : bool -> bool -> bytes -> bytes -> bytes -> g1_point -> Prop) (verify_pop : bytes -> bytes -> bytes -> option bool) (Y : g1_point) (o : owner) : Prop :=
  is_bytes (o_key o) = true /\ is_bytes (o_pop o) = true /\ key_bytes (o_key o) (o_point o) /\ sig_bytes (o_pop o) (o_proof o) /\ 0 < o_factor o < r /\
  hash false false POP_DOMAIN (o_msg o) [] (g1_times (o_factor o) Y) /\ verify_pop (o_key o) (o_pop o) (o_msg o) = Some true.
