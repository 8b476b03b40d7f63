(** Vocabulary for C83: the digests a hash function gives for the counters of several messages. *)
From Verif Require Import Base Constants Group Field Curve BlsModel EncodingModel HasherModel PointModel HashCurveModel CurveGroups HashUniformSpec.

(** What is hashed: with or without the inner hash of CIP 22 ([q_inner], not used without), for a domain, a message and extra data. *)
Record query := mk_query { q_cip22 : bool; q_domain : bytes; q_message : bytes; q_extra : bytes; q_inner : bytes }.
(** The hash function gives these digests for the counters 0, ..., 254 of the query. *)
Definition answered (h : hasher) (q : query) (ds : list bytes) : Prop := forall c, (c < 255)%nat ->
  if q_cip22 q then crh h (q_domain q) (q_message q) 64 = Ok (q_inner q) /\ xof h (q_domain q) ([Z.of_nat c] ++ q_extra q ++ q_inner q) 64 = Ok (nth c ds [])
  else hash h (q_domain q) ([Z.of_nat c] ++ q_extra q ++ q_message q) 64 = Ok (nth c ds []).
(** A hash function for every choice of a table of digests for each of the queries.  Nothing is said about other inputs. *)
Definition tables (n : nat) (Ts : list (list bytes)) : Prop := length Ts = n /\ Forall (digests 255) Ts.
Definition answers_all (H : list (list bytes) -> hasher) (qs : list query) : Prop := forall Ts, tables (length qs) Ts -> Forall2 (answered (H Ts)) qs Ts.
(** The point a query hashes to: [HashToCurve::hash] of hash_to_curve/try_and_increment.rs lines 61-140 and try_and_increment_cip22.rs lines 61-135. *)
Definition query_hash (compat : bool) (sqrt : fq -> option fq) (h : hasher) (q : query) : result g1_curve :=
  if q_cip22 q then g1_hash_cip22 compat h g1_curve g1_of G1_COFACTOR sqrt (q_domain q) (q_message q) (q_extra q)
  else g1_hash compat h g1_curve g1_of G1_COFACTOR sqrt (q_domain q) (q_message q) (q_extra q).
