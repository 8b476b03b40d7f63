(** Specification vocabulary for the signature properties (C01-C11), stated with discrete logarithms
    and the oracle only; it does not use the verification code of the model. *)
From Verif Require Import Base Constants Group.

Section Spec.
Context {pr : pairing}.

(** [k] is a discrete logarithm of the public key. *)
Definition is_dlog (k : Z) (pk : G2 pr) : Prop := pk = smul k gen2.

(** [sig] is the signature point for [pk] on the hashed message [H]. *)
Definition signature_on (H : G1 pr) (pk : G2 pr) (sig : G1 pr) : Prop :=
  exists k, is_dlog k pk /\ sig = smul k H.

(** Validity of (message, extra, signature) in a domain for an oracle. *)
Definition valid_in (h : bytes -> bytes -> bytes -> result (G1 pr)) (domain message extra : bytes)
    (pk : G2 pr) (sig : G1 pr) : Prop :=
  exists H, h domain message extra = Ok H /\ signature_on H pk sig.

(** Position-wise validity of a list of signatures on a list of hashes. *)
Inductive signatures_on : list (G1 pr) -> list (G2 pr) -> list (G1 pr) -> Prop :=
| so_nil : signatures_on [] [] []
| so_cons H pk s Hs pks ss : signature_on H pk s -> signatures_on Hs pks ss ->
    signatures_on (H :: Hs) (pk :: pks) (s :: ss).

(** Sum of a list, right-associated: the specification of aggregation. *)
Definition total {G : grp} (l : list G) : G := fold_right ga gz l.

(** Sum of the multiples k_i P_i. *)
Fixpoint lincomb {G : grp} (ks : list Z) (ps : list G) : G :=
  match ks, ps with
  | k :: ks', P :: ps' => (smul k P + lincomb ks' ps')%G
  | _, _ => gz
  end.
End Spec.
