(** C83: the hashes of different messages are independent, when the answers of the hash function are.  [answers_all H qs]: H Ts gives, for the counters 0, ..., 254 of
    the i-th of the queries qs, the digests of the i-th table of Ts.  [tables n Ts]: Ts are n tables of 255 digests of 64 bytes.  [lists_all F L]: L holds what has the property F, each once. *)
From Verif Require Import Base Constants Group Field Curve BlsModel PointModel EncodingModel HasherModel HashCurveModel HashCurveSpec CurveGroups OrderSpec KeygenSpec HashUniformSpec JointSpec JointProofs.

(** Each choice of points of G1 other than infinity, one per query, is made by the same number of choices of tables: the product of the numbers of C76. *)
Theorem C83_independent : forall compat sqrt, sqrt_spec qmul sqrt -> forall H qs Ps L, answers_all H qs -> length Ps = length qs ->
  Forall (fun P => in_g1 (g1_to P) /\ g1_to P <> None) Ps ->
  lists_all (fun Ts => tables (length qs) Ts /\ Forall2 (fun q P => query_hash compat sqrt (H Ts) q = Ok P) qs Ps) L ->
  Z.of_nat (length L) * (r - 1) ^ Z.of_nat (length qs) = ((2 ^ 512) ^ 255 - USELESS ^ 255) ^ Z.of_nat (length qs).
Proof. exact independent. Qed.
(** So whoever knows the hashes of some of the messages learns nothing about the hashes of the others. *)
Theorem C83_nothing_learned : forall compat sqrt, sqrt_spec qmul sqrt -> forall H qs Ps Ps' L L', answers_all H qs -> length Ps = length qs -> length Ps' = length qs ->
  Forall (fun P => in_g1 (g1_to P) /\ g1_to P <> None) Ps -> Forall (fun P => in_g1 (g1_to P) /\ g1_to P <> None) Ps' ->
  lists_all (fun Ts => tables (length qs) Ts /\ Forall2 (fun q P => query_hash compat sqrt (H Ts) q = Ok P) qs Ps) L ->
  lists_all (fun Ts => tables (length qs) Ts /\ Forall2 (fun q P => query_hash compat sqrt (H Ts) q = Ok P) qs Ps') L' -> length L = length L'.
Proof. exact equally_many. Qed.
(** Two messages hash to the same point for one in r - 1 of the pairs of tables that give points. *)
Theorem C83_collision : forall compat sqrt, sqrt_spec qmul sqrt -> forall H q q' L, answers_all H [q; q'] ->
  lists_all (fun Ts => tables 2 Ts /\ exists P, query_hash compat sqrt (H Ts) q = Ok P /\ query_hash compat sqrt (H Ts) q' = Ok P) L ->
  Z.of_nat (length L) * (r - 1) = ((2 ^ 512) ^ 255 - USELESS ^ 255) ^ 2.
Proof. exact collision. Qed.
Print Assumptions C83_independent.
Print Assumptions C83_nothing_learned.
Print Assumptions C83_collision.
