(** C76: the distribution of the points messages hash to, when the answers of the hash function are.  [digests n ds]: ds are n digests of 64 bytes.
    [answers H d m x]: the hash function H ds gives the digests ds for the counters 0, ..., 254 of this domain, message and extra data.
    [lists_all F L]: L holds the tables with the property F, each once. *)
From Verif Require Import Base Constants Group Field Curve BlsModel PointModel EncodingModel HasherModel HashCurveModel HashCurveSpec CurveGroups OrderSpec KeygenSpec HashUniformSpec HashUniformProofs.

(** Every point of G1 other than infinity is the hash of a message for the same number of tables: of the (2^512)^255 tables all but USELESS^255
    give a point, each of the r - 1 points equally often. *)
Theorem C76_uniform : forall compat sqrt, sqrt_spec qmul sqrt -> forall H d m x P L, answers H d m x -> in_g1 (g1_to P) -> g1_to P <> None ->
  lists_all (fun ds => digests 255 ds /\ g1_hash compat (H ds) g1_curve g1_of G1_COFACTOR sqrt d m x = Ok P) L ->
  Z.of_nat (length L) * (r - 1) = (2 ^ 512) ^ 255 - USELESS ^ 255.
Proof. exact plain_uniform. Qed.
Theorem C76_uniform_cip22 : forall compat sqrt, sqrt_spec qmul sqrt -> forall H d m x inner P L, answers_cip22 H d m x inner -> in_g1 (g1_to P) -> g1_to P <> None ->
  lists_all (fun ds => digests 255 ds /\ g1_hash_cip22 compat (H ds) g1_curve g1_of G1_COFACTOR sqrt d m x = Ok P) L ->
  Z.of_nat (length L) * (r - 1) = (2 ^ 512) ^ 255 - USELESS ^ 255.
Proof. exact cip22_uniform. Qed.
(** The counter tells nothing about the point: each pair of a counter and a point has a number of tables that depends on the counter only. *)
Theorem C76_counter_independent : forall compat sqrt, sqrt_spec qmul sqrt -> forall H d m x P c L, answers H d m x -> 0 <= c < 255 -> in_g1 (g1_to P) -> g1_to P <> None ->
  lists_all (fun ds => digests 255 ds /\ g1_attempt compat (H ds) g1_curve g1_of G1_COFACTOR sqrt d m x = Ok (P, c)) L ->
  Z.of_nat (length L) = USELESS ^ c * PER_POINT * (2 ^ 512) ^ (254 - c).
Proof. exact plain_attempt. Qed.
Theorem C76_counter_independent_cip22 : forall compat sqrt, sqrt_spec qmul sqrt -> forall H d m x inner P c L, answers_cip22 H d m x inner -> 0 <= c < 255 -> in_g1 (g1_to P) -> g1_to P <> None ->
  lists_all (fun ds => digests 255 ds /\ g1_attempt_cip22 compat (H ds) g1_curve g1_of G1_COFACTOR sqrt d m x = Ok (P, c)) L ->
  Z.of_nat (length L) = USELESS ^ c * PER_POINT * (2 ^ 512) ^ (254 - c).
Proof. exact cip22_attempt. Qed.
(** Hashing gives up for less than one table in 2^200. *)
Theorem C76_failure : forall compat sqrt, sqrt_spec qmul sqrt -> forall H d m x L, answers H d m x ->
  lists_all (fun ds => digests 255 ds /\ g1_attempt compat (H ds) g1_curve g1_of G1_COFACTOR sqrt d m x = Err HashToCurveError) L ->
  Z.of_nat (length L) = USELESS ^ 255 /\ Z.of_nat (length L) * 2 ^ 200 <= (2 ^ 512) ^ 255.
Proof. exact plain_failing. Qed.
Theorem C76_failure_cip22 : forall compat sqrt, sqrt_spec qmul sqrt -> forall H d m x inner L, answers_cip22 H d m x inner ->
  lists_all (fun ds => digests 255 ds /\ g1_attempt_cip22 compat (H ds) g1_curve g1_of G1_COFACTOR sqrt d m x = Err HashToCurveError) L ->
  Z.of_nat (length L) = USELESS ^ 255 /\ Z.of_nat (length L) * 2 ^ 200 <= (2 ^ 512) ^ 255.
Proof. exact cip22_failing. Qed.
Print Assumptions C76_uniform.
Print Assumptions C76_uniform_cip22.
Print Assumptions C76_counter_independent.
Print Assumptions C76_counter_independent_cip22.
Print Assumptions C76_failure.
Print Assumptions C76_failure_cip22.
