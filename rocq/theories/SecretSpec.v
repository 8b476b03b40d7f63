(** Vocabulary for C71: accepted epoch proofs in terms of private keys. *)
From Verif Require Import Base Constants Group Field Curve PointModel EncodingModel HashCurveModel GadgetSpec EpochSpec CurveGroups OrderSpec TwistSpec.

(** What is asked of the pairing: additive in both arguments on all points of the curve and the points of G2, not zero at the generators. *)
Definition curve_pairing {GT : grp} (e : g1_curve -> g2_curve -> GT) : Prop :=
  (forall P P' Q, in_g2 (g2_to Q) -> e (ga P P') Q = ga (e P Q) (e P' Q)) /\
  (forall P Q Q', in_g2 (g2_to Q) -> in_g2 (g2_to Q') -> e P (ga Q Q') = ga (e P Q) (e P Q')) /\
  e g1_gen g2_gen <> gz.
(** The private key [sk] belongs to the public key [K]. *)
Definition secret_of (K : g2_curve) (sk : Z) : Prop := 0 <= sk < r /\ g2_to K = g2_times sk g2_generator.
(** The sum of some private keys. *)
Definition zsum (l : list Z) : Z := fold_right Z.add 0 l.
(** Equal after multiplication by the cofactor: all that a pairing with points of G2 can see. *)
Definition same_in_g1 (S T : g1_curve) : Prop := smul G1_COFACTOR S = smul G1_COFACTOR T.
(** The aggregate of the signatures that the holders of [sks] make of the hash [H], over all headers. *)
Definition aggregate_of (l : list (g1_curve * list Z)) : g1_curve := sum (map (fun '(H, sks) => smul (zsum sks) H) l).
(** From committee [c] on, each header [h] is signed with the private keys of a quorum of the committee before it. *)
Fixpoint signed_chain (hashes : header g2_curve -> g1_curve -> Prop) (c : committee g2_curve) (l : list (header g2_curve)) (ps : list (g1_curve * list Z)) : Prop :=
  match l, ps with
  | [], [] => True
  | h :: l, (H, sks) :: ps =>
      hashes h H /\ (exists bitmap signing, quorum g2_gen c bitmap signing /\ Forall2 secret_of signing sks) /\ zsum sks mod r <> 0 /\
      signed_chain hashes (committee_of h) l ps
  | _, _ => False
  end.
(** A header whose keys are points of G2. *)
Definition keys_in_g2 (h : header g2_curve) : Prop := Forall (fun k => in_g2 (g2_to (fst k))) (h_keys h).
