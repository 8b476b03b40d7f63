(** C25-C29. *)
From Verif Require Import Base Constants Group Field Curve BlsModel BlsProofs EncodingModel HasherModel HasherProofs PointModel PointProofs
  HashCurveModel HashCurveSpec HashCurveProofs HashLength.

(** ** C25 *)
Theorem C25_g1_least_counter : forall compat h E of_point cofactor sqrt d m x P c,
  bytes_hasher h -> sqrt_spec qmul sqrt ->
  g1_attempt compat h E of_point cofactor sqrt d m x = Ok (P, c) <->
  least_success (fun c => hash h d ([c] ++ x ++ m) 64) 48
    (gives (denotes_g1 (g1_sign_bit compat)) of_point cofactor 48) P c.
Proof. intros. apply plain_ok; [intros; apply g1_candidate_decode; assumption|assumption]. Qed.
Theorem C25_g1_failure : forall compat h E of_point cofactor sqrt d m x e,
  bytes_hasher h -> sqrt_spec qmul sqrt ->
  g1_attempt compat h E of_point cofactor sqrt d m x = Err e <->
  first_error (fun c => hash h d ([c] ++ x ++ m) 64) 48
    (gives (denotes_g1 (g1_sign_bit compat)) of_point cofactor 48) e \/
  (e = HashToCurveError /\ no_success (fun c => hash h d ([c] ++ x ++ m) 64) 48
    (gives (denotes_g1 (g1_sign_bit compat)) of_point cofactor 48)).
Proof. intros. apply plain_err; [intros; apply g1_candidate_decode; assumption|assumption]. Qed.
Theorem C25_g1_cip22_least_counter : forall compat h E of_point cofactor sqrt d m x P c,
  bytes_hasher h -> sqrt_spec qmul sqrt ->
  g1_attempt_cip22 compat h E of_point cofactor sqrt d m x = Ok (P, c) <->
  exists inner, crh h d m 64 = Ok inner /\
  least_success (fun c => xof h d ([c] ++ x ++ inner) 64) 48
    (gives (denotes_g1 (g1_sign_bit compat)) of_point cofactor 48) P c.
Proof. intros. apply cip22_ok; [intros; apply g1_candidate_decode; assumption|assumption]. Qed.
Theorem C25_g1_cip22_failure : forall compat h E of_point cofactor sqrt d m x e,
  bytes_hasher h -> sqrt_spec qmul sqrt ->
  g1_attempt_cip22 compat h E of_point cofactor sqrt d m x = Err e <->
  crh h d m 64 = Err e \/
  exists inner, crh h d m 64 = Ok inner /\
    (first_error (fun c => xof h d ([c] ++ x ++ inner) 64) 48
      (gives (denotes_g1 (g1_sign_bit compat)) of_point cofactor 48) e \/
    (e = HashToCurveError /\ no_success (fun c => xof h d ([c] ++ x ++ inner) 64) 48
      (gives (denotes_g1 (g1_sign_bit compat)) of_point cofactor 48))).
Proof. intros. apply cip22_err; [intros; apply g1_candidate_decode; assumption|assumption]. Qed.
Theorem C25_g2_least_counter : forall compat h E of_point cofactor sqrt d m x P c,
  bytes_hasher h -> sqrt_spec q2mul sqrt ->
  g2_attempt compat h E of_point cofactor sqrt d m x = Ok (P, c) <->
  least_success (fun c => hash h d ([c] ++ x ++ m) 96) 96
    (gives (denotes_g2 (g2_sign_bit compat)) of_point cofactor 96) P c.
Proof. intros. apply plain_ok; [intros; apply g2_candidate_decode; assumption|assumption]. Qed.
Theorem C25_g2_cip22_least_counter : forall compat h E of_point cofactor sqrt d m x P c,
  bytes_hasher h -> sqrt_spec q2mul sqrt ->
  g2_attempt_cip22 compat h E of_point cofactor sqrt d m x = Ok (P, c) <->
  exists inner, crh h d m 96 = Ok inner /\
  least_success (fun c => xof h d ([c] ++ x ++ inner) 96) 96
    (gives (denotes_g2 (g2_sign_bit compat)) of_point cofactor 96) P c.
Proof. intros. apply cip22_ok; [intros; apply g2_candidate_decode; assumption|assumption]. Qed.
(** The trait method drops the counter and changes nothing else. *)
Theorem C25_hash_is_attempt : forall compat h E of_point cofactor sqrt d m x P,
  (g1_hash compat h E of_point cofactor sqrt d m x = Ok P <->
   exists c, g1_attempt compat h E of_point cofactor sqrt d m x = Ok (P, c)) /\
  (g1_hash_cip22 compat h E of_point cofactor sqrt d m x = Ok P <->
   exists c, g1_attempt_cip22 compat h E of_point cofactor sqrt d m x = Ok (P, c)).
Proof. intros. split; apply hash_drops_counter. Qed.
(** Hashers in use return bytes; square roots exist. *)
Theorem C25_premises_hold : bytes_hasher direct_hasher /\
  (forall pedersen, (forall m out, pedersen m = Ok out -> is_bytes out = true) -> bytes_hasher (composite_hasher pedersen)) /\
  (exists sqrt, sqrt_spec qmul sqrt) /\ (exists sqrt, sqrt_spec q2mul sqrt).
Proof.
  split; [exact direct_bytes|]. split; [exact composite_bytes|].
  split; [exists fq_sqrt; exact fq_sqrt_ok|exists fq2_sqrt; exact fq2_sqrt_ok].
Qed.

(** ** C26 *)
Theorem C26_g1_subgroup : forall compat h E of_point cofactor sqrt d m x P c,
  bytes_hasher h -> sqrt_spec qmul sqrt -> curve_group E of_point cofactor ->
  g1_attempt compat h E of_point cofactor sqrt d m x = Ok (P, c) \/
  g1_attempt_cip22 compat h E of_point cofactor sqrt d m x = Ok (P, c) ->
  P <> gz /\ smul r P = gz /\ (forall k, smul k P = gz -> (r | k)).
Proof.
  intros compat h E of_point cofactor sqrt d m x P c Hb Hs Hc [H|H]; revert H.
  - eapply plain_subgroup; [intros; apply g1_candidate_decode; eassumption|assumption|assumption].
  - eapply cip22_subgroup; [intros; apply g1_candidate_decode; eassumption|assumption|assumption].
Qed.
Theorem C26_g2_subgroup : forall compat h E of_point cofactor sqrt d m x P c,
  bytes_hasher h -> sqrt_spec q2mul sqrt -> curve_group E of_point cofactor ->
  g2_attempt compat h E of_point cofactor sqrt d m x = Ok (P, c) \/
  g2_attempt_cip22 compat h E of_point cofactor sqrt d m x = Ok (P, c) ->
  P <> gz /\ smul r P = gz /\ (forall k, smul k P = gz -> (r | k)).
Proof.
  intros compat h E of_point cofactor sqrt d m x P c Hb Hs Hc [H|H]; revert H.
  - eapply plain_subgroup; [intros; apply g2_candidate_decode; eassumption|assumption|assumption].
  - eapply cip22_subgroup; [intros; apply g2_candidate_decode; eassumption|assumption|assumption].
Qed.

(** ** C27 *)
Theorem C27_plain_concatenation : forall compat h E of_point cofactor sqrt d m x m' x', x ++ m = x' ++ m' ->
  g1_hash compat h E of_point cofactor sqrt d m x = g1_hash compat h E of_point cofactor sqrt d m' x'.
Proof. exact plain_concat. Qed.
(** ... so one signature serves both, whatever embedding [to_G1] of the curve group into G1 is used. *)
Theorem C27_plain_signature_reuse : forall (pr : pairing) compat h (E : grp) of_point cofactor sqrt (to_G1 : E -> G1 pr) m x m' x' sk,
  x ++ m = x' ++ m' ->
  let hg d m x := rbind (g1_hash compat h E of_point cofactor sqrt d m x) (fun P => Ok (to_G1 P)) in
  outcome (sign hg sk m x) = outcome (sign hg sk m' x') /\
  forall pk sig, outcome (verify hg pk m x sig) = outcome (verify hg pk m' x' sig).
Proof. exact plain_reuse. Qed.
Theorem C27_plain_pairs_not_separated : exists m x m' x', (m, x) <> (m', x') /\
  forall compat h E of_point cofactor sqrt d,
  g1_hash compat h E of_point cofactor sqrt d m x = g1_hash compat h E of_point cofactor sqrt d m' x'.
Proof.
  exists [1; 2], [], [2], [1]. split; [discriminate|]. intros. apply plain_concat. reflexivity.
Qed.
(** CIP22: the XOF inputs (C25) of two requests are disjoint unless extra data and digest agree. *)
Theorem C27_cip22_inputs_disjoint : forall (h : HasherModel.hasher) width d m x i d' m' x' i' (c c' : Z),
  (forall d m n i, crh h d m n = Ok i -> length i = width) ->
  crh h d m 64 = Ok i -> crh h d' m' 64 = Ok i' ->
  [c] ++ x ++ i = [c'] ++ x' ++ i' -> c = c' /\ x = x' /\ i = i'.
Proof. exact cip22_inputs. Qed.
Theorem C27_crh_width : (forall d m n i, crh direct_hasher d m n = Ok i -> length i = 32%nat) /\
  (forall pedersen, (forall m i, pedersen m = Ok i -> length i = 48%nat) ->
   forall d m n i, crh (composite_hasher pedersen) d m n = Ok i -> length i = 48%nat).
Proof. split; [exact direct_crh_width|]. intros pedersen H d m n i. apply H. Qed.
Theorem C27_cip22_uses_digest_only : forall compat h E of_point cofactor sqrt d m m' x,
  crh h d m 64 = crh h d m' 64 ->
  g1_hash_cip22 compat h E of_point cofactor sqrt d m x = g1_hash_cip22 compat h E of_point cofactor sqrt d m' x.
Proof. exact cip22_digest_only. Qed.

(** ** C28 *)
Theorem C28_g1_decode : forall sqrt l P, sqrt_spec qmul sqrt -> length l = 48%nat -> is_bytes l = true ->
  g1_from_random_bytes sqrt l = Some P <-> denotes_g1 383 (number l) P.
Proof. exact g1_decode_iff. Qed.
Theorem C28_g2_decode : forall sqrt l P, sqrt_spec q2mul sqrt -> length l = 96%nat -> is_bytes l = true ->
  g2_from_random_bytes sqrt l = Some P <-> denotes_g2 767 (number l) P.
Proof. exact g2_decode_iff. Qed.
Theorem C28_g1_on_curve : forall sqrt l P, sqrt_spec qmul sqrt -> length l = 48%nat -> is_bytes l = true ->
  g1_from_random_bytes sqrt l = Some P -> on_g1 P = true.
Proof. exact g1_decode_on. Qed.
Theorem C28_g2_on_curve : forall sqrt l P, sqrt_spec q2mul sqrt -> length l = 96%nat -> is_bytes l = true ->
  g2_from_random_bytes sqrt l = Some P -> on_twist P = true.
Proof. exact g2_decode_on. Qed.
Theorem C28_g1_sign_flip : forall sqrt l l' P, sqrt_spec qmul sqrt -> length l = 48%nat -> is_bytes l = true ->
  length l' = 48%nat -> is_bytes l' = true -> number l' = Z.lxor (number l) (2 ^ 383) ->
  g1_from_random_bytes sqrt l = Some P -> g1_from_random_bytes sqrt l' = Some (g1_neg P).
Proof.
  intros sqrt l l' P Hs Hl Hb Hl' Hb' Hx H. apply g1_decode_iff; try assumption. rewrite Hx.
  apply denotes_g1_flip, (g1_decode_iff sqrt); assumption.
Qed.
Theorem C28_g2_sign_flip : forall sqrt l l' P, sqrt_spec q2mul sqrt -> length l = 96%nat -> is_bytes l = true ->
  length l' = 96%nat -> is_bytes l' = true -> number l' = Z.lxor (number l) (2 ^ 767) ->
  g2_from_random_bytes sqrt l = Some P -> g2_from_random_bytes sqrt l' = Some (g2_neg P).
Proof.
  intros sqrt l l' P Hs Hl Hb Hl' Hb' Hx H. apply g2_decode_iff; try assumption. rewrite Hx.
  apply denotes_g2_flip, (g2_decode_iff sqrt); assumption.
Qed.
Theorem C28_flags : (forall f, ysf_from_u8 (ysf_u8_bitmask f) = Some f) /\
  (forall b, exists f, ysf_from_u8 b = Some f /\ ysf_is_infinity f = Z.testbit b 6 /\ ysf_is_positive f = Some (Z.testbit b 7)) /\
  (forall f, 0 <= ysf_u8_bitmask f < 256 /\ Z.land (ysf_u8_bitmask f) 63 = 0) /\
  (forall b, ysf_is_positive (from_y_sign b) = Some b /\ ysf_is_infinity (from_y_sign b) = false) /\
  (forall b, Z.lor b (ysf_u8_bitmask ysf_default) = b).
Proof. exact flags_codec. Qed.

(** ** C29 *)
Theorem C29_hash_length : forall n, 0 <= n < 2 ^ 53 ->
  n <= hash_length_f64 n /\ hash_length_f64 n mod 32 = 0 /\
  forall m, n <= m -> m mod 32 = 0 -> hash_length_f64 n <= m.
Proof. intros n Hn. rewrite hash_length_exact by exact Hn. apply hash_length_least. lia. Qed.
Theorem C29_model_length : forall n, 0 <= n < 2 ^ 53 -> hash_length_f64 n = hash_length n.
Proof. exact hash_length_exact. Qed.
(** The bound is sharp up to one: at 2^53 + 1 the result is too small. *)
Theorem C29_unbounded_refuted : exists n, n < 2 ^ 61 /\ hash_length_f64 n < n.
Proof. exists (2 ^ 53 + 1). rewrite hash_length_short. split; reflexivity. Qed.

Print Assumptions C25_g1_least_counter.
Print Assumptions C25_g1_failure.
Print Assumptions C25_g1_cip22_least_counter.
Print Assumptions C25_g1_cip22_failure.
Print Assumptions C25_g2_least_counter.
Print Assumptions C25_g2_cip22_least_counter.
Print Assumptions C25_hash_is_attempt.
Print Assumptions C25_premises_hold.
Print Assumptions C26_g1_subgroup.
Print Assumptions C26_g2_subgroup.
Print Assumptions C27_plain_concatenation.
Print Assumptions C27_plain_signature_reuse.
Print Assumptions C27_plain_pairs_not_separated.
Print Assumptions C27_cip22_inputs_disjoint.
Print Assumptions C27_crh_width.
Print Assumptions C27_cip22_uses_digest_only.
Print Assumptions C28_g1_decode.
Print Assumptions C28_g2_decode.
Print Assumptions C28_g1_on_curve.
Print Assumptions C28_g2_on_curve.
Print Assumptions C28_g1_sign_flip.
Print Assumptions C28_g2_sign_flip.
Print Assumptions C28_flags.
Print Assumptions C29_hash_length.
Print Assumptions C29_model_length.
Print Assumptions C29_unbounded_refuted.
