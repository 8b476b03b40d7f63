(** Vocabulary for C76: the digests a hash function gives for the counters of one message. *)
From Verif Require Import Base Constants Group Field Curve EncodingModel HasherModel HashCurveModel.

(** [n] digests of 64 bytes each: what the hash function answers for the counters 0, 1, ..., n - 1. *)
Definition digest (l : bytes) : Prop := length l = 64%nat /\ is_bytes l = true.
Definition digests (n : nat) (ds : list bytes) : Prop := length ds = n /\ Forall digest ds.
(** A hash function for every choice of its answers on the inputs for one domain, message and extra data.  Nothing is said about other inputs. *)
Definition answers (H : list bytes -> hasher) (d m x : bytes) : Prop :=
  forall ds c, digests 255 ds -> (c < 255)%nat -> hash (H ds) d ([Z.of_nat c] ++ x ++ m) 64 = Ok (nth c ds []).
(** The same for the hash of CIP 22: the inner hash of the message is fixed, the answers of the outer function vary. *)
Definition answers_cip22 (H : list bytes -> hasher) (d m x inner : bytes) : Prop :=
  forall ds c, digests 255 ds -> (c < 255)%nat -> crh (H ds) d m 64 = Ok inner /\ xof (H ds) d ([Z.of_nat c] ++ x ++ inner) 64 = Ok (nth c ds []).
(** How many of the 2^512 digests lead to a given point other than infinity (by the theorems), and how many to none. *)
Definition PER_POINT : Z := 2 ^ 134 * G1_COFACTOR.
Definition USELESS : Z := 2 ^ 512 - PER_POINT * (r - 1).
