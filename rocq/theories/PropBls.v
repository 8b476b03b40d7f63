(** Property theorems C01-C11 (signatures, aggregation, batches). *)
From Coq Require Import Permutation.
From Verif Require Import Base Constants Group BlsModel BlsSpec BlsProofs BatchProofs.
Open Scope Z_scope.

(** C01 *)
Theorem C01_sign_then_verify : forall (pr : pairing) (h : hasher pr) sk m x sig,
  outcome (sign h sk m x) = Ok sig -> outcome (verify h (to_public sk) m x sig) = Ok tt.
Proof. exact (fun pr h sk m x sig => sign_message_verify h sk SIG_DOMAIN m x sig). Qed.
Print Assumptions C01_sign_then_verify.

Theorem C01_sign_pop_then_verify_pop : forall (pr : pairing) (h : hasher pr) sk m sig,
  outcome (sign_pop h sk m) = Ok sig -> outcome (verify_pop h (to_public sk) m sig) = Ok tt.
Proof. exact (fun pr h sk m sig => sign_message_verify h sk POP_DOMAIN m [] sig). Qed.
Print Assumptions C01_sign_pop_then_verify_pop.

Theorem C01_sign_fails_exactly_with_hash : forall (pr : pairing) (h : hasher pr) sk m x err,
  (outcome (sign h sk m x) = Err err <-> h SIG_DOMAIN m x = Err err) /\
  (outcome (sign h sk m x) = Panic <-> h SIG_DOMAIN m x = Panic).
Proof. exact (fun pr h sk m x err => sign_message_fails h sk SIG_DOMAIN m x err). Qed.
Print Assumptions C01_sign_fails_exactly_with_hash.

Theorem C01_sign_pop_fails_exactly_with_hash : forall (pr : pairing) (h : hasher pr) sk m err,
  (outcome (sign_pop h sk m) = Err err <-> h POP_DOMAIN m [] = Err err) /\
  (outcome (sign_pop h sk m) = Panic <-> h POP_DOMAIN m [] = Panic).
Proof. exact (fun pr h sk m err => sign_message_fails h sk POP_DOMAIN m [] err). Qed.
Print Assumptions C01_sign_pop_fails_exactly_with_hash.

(** C02 *)
Theorem C02_verify_accepts_exactly_one : forall (pr : pairing) (h : hasher pr) pk m x H,
  h SIG_DOMAIN m x = Ok H ->
  exists sig0, signature_on H pk sig0 /\
    forall sig, (sig = sig0 -> outcome (verify h pk m x sig) = Ok tt) /\
                (sig <> sig0 -> outcome (verify h pk m x sig) = Err VerificationFailed).
Proof. exact (fun pr h pk m x H => verify_sig_exact h pk SIG_DOMAIN m x H). Qed.
Print Assumptions C02_verify_accepts_exactly_one.

Theorem C02_verify_iff_valid : forall (pr : pairing) (h : hasher pr) pk m x sig,
  outcome (verify h pk m x sig) = Ok tt <-> valid_in h SIG_DOMAIN m x pk sig.
Proof. exact (fun pr h pk m x sig => verify_sig_iff h pk SIG_DOMAIN m x sig). Qed.
Print Assumptions C02_verify_iff_valid.

Theorem C02_verify_pop_iff_valid : forall (pr : pairing) (h : hasher pr) pk m sig,
  outcome (verify_pop h pk m sig) = Ok tt <-> valid_in h POP_DOMAIN m [] pk sig.
Proof. exact (fun pr h pk m sig => verify_sig_iff h pk POP_DOMAIN m [] sig). Qed.
Print Assumptions C02_verify_pop_iff_valid.

Theorem C02_hash_error_propagates : forall (pr : pairing) (h : hasher pr) pk m x sig,
  (forall err, h SIG_DOMAIN m x = Err err -> outcome (verify h pk m x sig) = Err err) /\
  (h SIG_DOMAIN m x = Panic -> outcome (verify h pk m x sig) = Panic).
Proof. exact (fun pr h pk m x sig => verify_sig_hash_error h pk SIG_DOMAIN m x sig). Qed.
Print Assumptions C02_hash_error_propagates.

(** C03 (see also PropHash.v for the parameter blocks) *)
Theorem C03_queries_are_domain_separated : forall (pr : pairing) (h : hasher pr) sk pk m x sig,
  queries (sign h sk m x) = [(SIG_DOMAIN, m, x)] /\
  queries (verify h pk m x sig) = [(SIG_DOMAIN, m, x)] /\
  queries (sign_pop h sk m) = [(POP_DOMAIN, m, [])] /\
  queries (verify_pop h pk m sig) = [(POP_DOMAIN, m, [])].
Proof.
  exact (fun pr h sk pk m x sig => conj (sign_queries h sk m x) (conj (verify_queries h pk m x sig)
           (conj (sign_pop_queries h sk m) (verify_pop_queries h pk m sig)))).
Qed.
Print Assumptions C03_queries_are_domain_separated.

Theorem C03_cross_use_iff_collision : forall (pr : pairing) (h : hasher pr) sk m x sig m',
  ~ (r | sk) -> outcome (sign h sk m x) = Ok sig ->
  (outcome (verify_pop h (to_public sk) m' sig) = Ok tt <->
   exists H, h SIG_DOMAIN m x = Ok H /\ h POP_DOMAIN m' [] = Ok H).
Proof. exact (fun pr h sk m x sig m' => cross_domain h sk m x sig m'). Qed.
Print Assumptions C03_cross_use_iff_collision.

(** C04 *)
Theorem C04_aggregate_verifies : forall (pr : pairing) (h : hasher pr) sks m x sigs,
  mapM (fun sk => outcome (sign h sk m x)) sks = Ok sigs ->
  is_ok (h SIG_DOMAIN m x) = true ->
  outcome (verify h (aggregate_pk (map to_public sks)) m x (aggregate_sig sigs)) = Ok tt.
Proof. exact (fun pr h sks m x sigs => aggregate_verifies h sks m x sigs). Qed.
Print Assumptions C04_aggregate_verifies.

Theorem C04_aggregate_accepts_iff_sum : forall (pr : pairing) (h : hasher pr) m x H pks ss,
  h SIG_DOMAIN m x = Ok H -> signatures_on (repeat H (length pks)) pks ss ->
  forall sig, outcome (verify h (aggregate_pk pks) m x sig) = Ok tt <-> sig = total ss.
Proof. exact (fun pr h m x H pks ss => aggregate_same_message h SIG_DOMAIN m x H pks ss). Qed.
Print Assumptions C04_aggregate_accepts_iff_sum.

Theorem C04_aggregate_order_and_grouping : forall (pr : pairing) (pks pks' : list (G2 pr))
    (sigs sigs' : list (G1 pr)) (pkss : list (list (G2 pr))) (sigss : list (list (G1 pr))),
  (Permutation pks pks' -> aggregate_pk pks = aggregate_pk pks') /\
  (Permutation sigs sigs' -> aggregate_sig sigs = aggregate_sig sigs') /\
  aggregate_pk (map aggregate_pk pkss) = aggregate_pk (concat pkss) /\
  aggregate_sig (map aggregate_sig sigss) = aggregate_sig (concat sigss) /\
  aggregate_pk ([] : list (G2 pr)) = gz /\ aggregate_sig ([] : list (G1 pr)) = gz /\
  aggregate_pk pks = total pks /\ aggregate_sig sigs = total sigs.
Proof.
  exact (fun pr pks pks' sigs sigs' pkss sigss =>
    conj (aggregate_perm pks pks') (conj (aggregate_perm sigs sigs')
    (conj (gsum_concat pkss) (conj (gsum_concat sigss) (conj eq_refl (conj eq_refl
    (conj (eq_sym (total_gsum pks)) (eq_sym (total_gsum sigs))))))))).
Qed.
Print Assumptions C04_aggregate_order_and_grouping.

(** C05 *)
Theorem C05_lengths_checked_first : forall (pr : pairing) (h : hasher pr) sig pks d ms,
  length pks <> length ms -> batch_verify h sig pks d ms = ([], Err UnevenNumKeysMessages).
Proof. exact (fun pr h sig pks d ms => batch_verify_uneven h sig pks d ms). Qed.
Print Assumptions C05_lengths_checked_first.

Theorem C05_first_hash_error : forall (pr : pairing) (h : hasher pr) sig pks d ms1 m x ms2 Hs,
  length pks = length (ms1 ++ (m, x) :: ms2) ->
  Forall2 (fun mx H => h d (fst mx) (snd mx) = Ok H) ms1 Hs ->
  (forall err, h d m x = Err err ->
   batch_verify h sig pks d (ms1 ++ (m, x) :: ms2) = (map (fun '(m, x) => (d, m, x)) (ms1 ++ [(m, x)]), Err err)) /\
  (h d m x = Panic ->
   batch_verify h sig pks d (ms1 ++ (m, x) :: ms2) = (map (fun '(m, x) => (d, m, x)) (ms1 ++ [(m, x)]), Panic)).
Proof. exact (fun pr h sig pks d ms1 m x ms2 Hs => batch_verify_hash_failure h sig pks d ms1 m x ms2 Hs). Qed.
Print Assumptions C05_first_hash_error.

Theorem C05_accepts_iff_sum : forall (pr : pairing) (h : hasher pr) sig pks d ms,
  outcome (batch_verify h sig pks d ms) = Ok tt <->
  exists Hs ss, Forall2 (fun mx H => h d (fst mx) (snd mx) = Ok H) ms Hs /\
    signatures_on Hs pks ss /\ sig = total ss.
Proof. exact (fun pr h sig pks d ms => batch_verify_iff h sig pks d ms). Qed.
Print Assumptions C05_accepts_iff_sum.

Theorem C05_decision_when_all_hash : forall (pr : pairing) (h : hasher pr) sig pks d ms Hs ss,
  Forall2 (fun mx H => h d (fst mx) (snd mx) = Ok H) ms Hs -> signatures_on Hs pks ss ->
  batch_verify h sig pks d ms =
  (map (fun '(m, x) => (d, m, x)) ms, if geqb sig (total ss) then Ok tt else Err VerificationFailed).
Proof. exact (fun pr h sig pks d ms Hs ss => batch_verify_ok_case h sig pks d ms Hs ss). Qed.
Print Assumptions C05_decision_when_all_hash.

Theorem C05_order_irrelevant : forall (pr : pairing) (h : hasher pr) sig d (l l' : list (G2 pr * (bytes * bytes))),
  Permutation l l' ->
  outcome (batch_verify h sig (map fst l) d (map snd l)) = Ok tt ->
  outcome (batch_verify h sig (map fst l') d (map snd l')) = Ok tt.
Proof. exact (fun pr h sig d l l' => batch_verify_perm h sig d l l'). Qed.
Print Assumptions C05_order_irrelevant.

(** C06 (the witness of cancelling errors is [C06_errors_cancel_refuted] in BlsExamples.v) *)
Theorem C06_last_component_forced : forall (pr : pairing) Hs1 H Hs2 pks1 pk pks2 ss1 (s : G1 pr) ss2,
  signatures_on Hs1 pks1 ss1 -> signatures_on Hs2 pks2 ss2 ->
  outcome (batch_verify_hashes (aggregate_sig (ss1 ++ s :: ss2)) (pks1 ++ pk :: pks2) (Hs1 ++ H :: Hs2)) = Ok tt ->
  signature_on H pk s.
Proof. exact (fun pr => last_component_valid (pr := pr)). Qed.
Print Assumptions C06_last_component_forced.

(** C07 *)
Theorem C07_batch_points : forall (G : grp) ks (ps : list G),
  (length ks <> length ps -> batch_points ks ps = None) /\
  (length ks = length ps -> batch_points ks ps = Some (lincomb ks ps)).
Proof. exact (fun G ks ps => batch_points_spec ks ps). Qed.
Print Assumptions C07_batch_points.

Theorem C07_linear : forall (G : grp) c ks ks' (ps : list G),
  length ks = length ps -> length ks' = length ps ->
  lincomb (map (fun '(a, b) => a + b) (combine ks ks')) ps = (lincomb ks ps + lincomb ks' ps)%G /\
  lincomb (map (Z.mul c) ks) ps = smul c (lincomb ks ps) /\
  lincomb (repeat 1 (length ps)) ps = total ps.
Proof.
  exact (fun G c ks ks' ps E E' => conj (lincomb_add_scalars ks ks' ps E E')
           (conj (lincomb_scale c ks ps E) (lincomb_ones ps))).
Qed.
Print Assumptions C07_linear.

Theorem C07_combined_signatures_valid : forall (pr : pairing) H ks pks (ss : list (G1 pr)),
  length ks = length pks -> signatures_on (repeat H (length pks)) pks ss ->
  signature_on H (lincomb ks pks) (lincomb ks ss).
Proof. exact (fun pr H ks pks ss => lincomb_valid H ks pks ss). Qed.
Print Assumptions C07_combined_signatures_valid.

(** C08 *)
Theorem C08_batch_complete : forall (pr : pairing) (h : hasher pr) b rnd,
  draw_for b rnd -> is_ok (h SIG_DOMAIN (b_message b) (b_extra b)) = true ->
  Forall (entry_valid h b) (entries b) -> outcome (batch_verify_random h b rnd) = Ok tt.
Proof. exact (fun pr h b rnd => batch_complete h b rnd). Qed.
Print Assumptions C08_batch_complete.

(** A batch made by calls of [add] holds the pairs in the order of the calls, and the message and extra data of [new]. *)
Theorem C08_batch_contents : forall (pr : pairing) m x (l : list (G2 pr * G1 pr)),
  let b := fold_left (fun b '(pk, sig) => batch_add b pk sig) l (batch_new m x) in entries b = l /\ b_message b = m /\ b_extra b = x.
Proof. exact (fun pr => batch_built (pr := pr)). Qed.
Print Assumptions C08_batch_contents.

(** C09 *)
Theorem C09_one_exponent_at_most : forall (pr : pairing) (h : hasher pr) b l1 pk sig l2 rnd1 x x' rnd2,
  entries b = l1 ++ (pk, sig) :: l2 -> length rnd1 = length l1 ->
  ~ entry_valid h b (pk, sig) ->
  draw_for b (rnd1 ++ x :: rnd2) -> draw_for b (rnd1 ++ x' :: rnd2) ->
  outcome (batch_verify_random h b (rnd1 ++ x :: rnd2)) = Ok tt ->
  outcome (batch_verify_random h b (rnd1 ++ x' :: rnd2)) = Ok tt ->
  x = x'.
Proof. exact (fun pr => one_exponent (pr := pr)). Qed.
Print Assumptions C09_one_exponent_at_most.

Theorem C09_accepting_fraction : forall (pr : pairing) (h : hasher pr) b (L : list (list bytes)),
  ~ Forall (entry_valid h b) (entries b) -> NoDup L ->
  (forall rnd, In rnd L -> draw_for b rnd /\ outcome (batch_verify_random h b rnd) = Ok tt) ->
  Z.of_nat (length L) * 2 ^ (8 * exp_size b) <= 2 ^ (8 * exp_size b * Z.of_nat (length (entries b))).
Proof. exact (fun pr h b L => batch_sound_count h b L). Qed.
Print Assumptions C09_accepting_fraction.

(** in figures: of the [2 ^ (8 * exp_size b * n)] draws for [n] entries at most one in [2 ^ 128 * n] accepts *)
Theorem C09_security : forall (pr : pairing) (h : hasher pr) b (L : list (list bytes)), Z.of_nat (length (entries b)) <= usize_max ->
  ~ Forall (entry_valid h b) (entries b) -> NoDup L ->
  (forall rnd, In rnd L -> draw_for b rnd /\ outcome (batch_verify_random h b rnd) = Ok tt) ->
  Z.of_nat (length L) * (2 ^ 128 * Z.of_nat (length (entries b))) <= 2 ^ (8 * exp_size b * Z.of_nat (length (entries b))).
Proof. exact (fun pr h b L => batch_security h b L). Qed.
Print Assumptions C09_security.

(** C10 *)
Theorem C10_exponent_size : forall n, 0 <= n <= usize_max ->
  let k := byte_count_from_target_batch_size n SECURITY_BOUND in
  16 <= k <= 24 /\ 128 + Z.log2_up n <= 8 * k < 128 + Z.log2_up n + 8.
Proof. exact byte_count_value. Qed.
Print Assumptions C10_exponent_size.

Theorem C10_exponent_security : forall n, 1 <= n <= usize_max ->
  2 ^ 128 * n <= 2 ^ (8 * byte_count_from_target_batch_size n SECURITY_BOUND).
Proof. exact byte_count_security. Qed.
Print Assumptions C10_exponent_security.

Theorem C10_scalars_total_and_injective : forall x x' : bytes,
  is_bytes x = true -> is_bytes x' = true -> length x = length x' -> Z.of_nat (length x) <= 31 ->
  fr_from_random_bytes x <> None /\ (fr_from_random_bytes x = fr_from_random_bytes x' -> x = x').
Proof. exact fr_random_inj. Qed.
Print Assumptions C10_scalars_total_and_injective.

Theorem C10_verify_never_panics : forall (pr : pairing) (h : hasher pr) b rnd,
  draw_for b rnd -> h SIG_DOMAIN (b_message b) (b_extra b) <> Panic ->
  outcome (batch_verify_random h b rnd) <> Panic.
Proof. exact (fun pr h b rnd => batch_no_panic h b rnd). Qed.
Print Assumptions C10_verify_never_panics.

(** C11 *)
Theorem C11_verify_each_iff : forall (pr : pairing) (h : hasher pr) b,
  outcome (verify_each h b) = Ok tt <-> Forall (entry_valid h b) (entries b).
Proof. exact (fun pr h b => verify_each_spec h b). Qed.
Print Assumptions C11_verify_each_iff.

(** in terms of the calls alone: adding the pairs and checking each is checking every pair by itself *)
Theorem C11_verify_each_calls : forall (pr : pairing) (h : hasher pr) m x (l : list (G2 pr * G1 pr)),
  outcome (verify_each h (fold_left (fun b '(pk, sig) => batch_add b pk sig) l (batch_new m x))) = Ok tt <->
  Forall (fun '(pk, sig) => outcome (verify h pk m x sig) = Ok tt) l.
Proof.
  intros pr h m x l. destruct (batch_built m x l) as (A & B & C). rewrite verify_each_spec, A.
  split; intros F; (eapply Forall_impl; [|exact F]); intros [pk sig] H; [apply verify_sig_iff|apply verify_sig_iff in H]; unfold entry_valid in *; rewrite B, C in *; exact H.
Qed.
Print Assumptions C11_verify_each_calls.

Theorem C11_first_failure : forall (pr : pairing) (h : hasher pr) b l1 pk sig l2,
  entries b = l1 ++ (pk, sig) :: l2 -> Forall (entry_valid h b) l1 ->
  ~ entry_valid h b (pk, sig) ->
  outcome (verify_each h b) = outcome (verify h pk (b_message b) (b_extra b) sig).
Proof. exact (fun pr => verify_each_first (pr := pr)). Qed.
Print Assumptions C11_first_failure.

Theorem C11_each_implies_batch : forall (pr : pairing) (h : hasher pr) b rnd,
  draw_for b rnd -> is_ok (h SIG_DOMAIN (b_message b) (b_extra b)) = true ->
  outcome (verify_each h b) = Ok tt -> outcome (batch_verify_random h b rnd) = Ok tt.
Proof.
  exact (fun pr h b rnd D Hok He => batch_complete h b rnd D Hok (proj1 (verify_each_spec h b) He)).
Qed.
Print Assumptions C11_each_implies_batch.
