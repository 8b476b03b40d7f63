(** C71: what an accepted epoch proof says about private keys, on the curves of BLS12-377.  Of the pairing only [curve_pairing] is used
    (additive on the curve and on G2, not zero at the generators); the proof system enters through [sound_for]. *)
From Verif Require Import Base Constants Group Field Curve BitsModel EncodingModel EncodingSpec HasherModel PointModel HashCurveModel HashCurveSpec CodecSpec
  Circuit GadgetSpec HashGadgetModel HashGadgetSpec HashGadgetNative EpochCircuitModel EpochSpec EpochCircuitSpec ProverModel ProverSpec FfiModel FfiSpec
  HelperModel SetupModel ShapeSpec LightSpec CurveGroups CurvesSpec OrderSpec TwistSpec SecretSpec SecretProofs.

(** The batched pairing equation with keys k_i * g2 holds exactly for the signature sum k_i * H_i, as far as its part in G1 goes. *)
Theorem C71_equation : forall (GT : grp) (e : g1_curve -> g2_curve -> GT) s l, curve_pairing e -> Forall (fun '(_, k) => 0 <= k) l ->
  signed e g2_gen s (map (fun '(H, k) => (H, smul k g2_gen)) l) <-> same_in_g1 s (sum (map (fun '(H, k) => smul k H) l)).
Proof. intros GT e s l L. apply (curve_equation e L). Qed.
(** For points of G1 that part is everything. *)
Theorem C71_exact : forall S T, in_g1 (g1_to S) -> in_g1 (g1_to T) -> same_in_g1 S T -> S = T.
Proof. exact exact_in_g1. Qed.

Section Secrets.
  Context (GT : grp) (e : g1_curve -> g2_curve -> GT) (sqrt : fq -> option fq) (ped : bytes -> option fq) (compat debug : bool).
  Context (P V key_e key_h R : Type) (vk_of : key_h -> V) (default_proof : P) (helper_verify : P * V -> list (list bool) -> bool).
  Context (sqrt2 : fq2 -> option fq2) (vkey proof : Type) (vkd : bytes -> result vkey) (pd : bytes -> result proof) (vp : vkey -> proof -> list Z -> result bool).
  Context (vk_of_e : key_e -> vkey).
  Notation circuit pin := (generate_constraints e g1_gen g2_gen g1_of g2_of g1_to g2_to sqrt ped compat pin debug helper_verify).
  Notation verify_c := (ffi_verify sqrt2 g2_test vkd pd vp blake2_out).
  Notation hashes := (hashes_to g1_of (native_ped ped) compat).
  Notation cert := (certified e g2_gen (opens_to g2_of) hashes).

  (** What the circuit certifies: every header is signed with the private keys of a quorum of the committee before it, and the
      signature is, in G1, the sum of all these signatures. *)
  Theorem C71_chain : forall n h0 l pairs s, curve_pairing e -> cert n h0 l pairs s -> keys_in_g2 h0 -> Forall keys_in_g2 (removelast l) ->
    exists ps, signed_chain hashes (committee_of h0) l ps /\ same_in_g1 s (aggregate_of ps).
  Proof. exact (certified_secrets GT e ped compat). Qed.

  (** What the C function [verify] certifies when it returns true. *)
  Theorem C71_verified : forall n k m rng hs vs q (rng' : R) vk pf first last,
    curve_pairing e -> sqrt_spec q2mul sqrt2 -> Z.of_nat n < 2 ^ 32 -> (0 < k)%nat ->
    (forall w0 r0 key r1, vs w0 r0 = Val (key, r1) -> sound_for (fun pr inputs => vp (vk_of_e key) pr inputs = Ok true) (holds (circuit true w0))) ->
    trusted_setup vk_of default_proof hs vs n k m rng false = Val (q, rng') -> vkd vk = Ok (vk_of_e (p_epochs q)) ->
    c_block first -> c_block last -> verify_c vk pf first last = Returns true None ->
    exists f l (h0 hl : header g2_curve) hs, epoch_block_try_from sqrt2 g2_test first = Ok f /\ epoch_block_try_from sqrt2 g2_test last = Ok l /\
      (length (hs ++ [hl]) <= k)%nat /\
      (collides (first_bits h0) (enc_first f) \/ (exists agg, sums_to g2_to hl agg /\ collides (closing_bits hl ++ agg) (enc_last l)) \/
       (shows_first g2_of h0 f /\ shows_last g2_of hl l /\ eb_index l = (eb_index f + Z.of_nat (length (hs ++ [hl]))) mod 2 ^ 16 /\
        (Forall keys_in_g2 hs -> exists s ps, signed_chain hashes (committee_of h0) (hs ++ [hl]) ps /\ same_in_g1 s (aggregate_of ps)))).
  Proof. intros n. apply verified_secrets. Qed.

  (** Two blocks with consecutive indices: a quorum of the first block's validators (never a padding key; up to the sign of keys with an
      undetermined sign bit) has private keys with which the header that shows the last block is signed. *)
  Theorem C71_consecutive : forall n k m rng hs vs q (rng' : R) vk pf first last,
    curve_pairing e -> sqrt_spec q2mul sqrt2 -> Z.of_nat n < 2 ^ 32 -> (0 < k)%nat -> Z.of_nat k < 2 ^ 16 ->
    (forall w0 r0 key r1, vs w0 r0 = Val (key, r1) -> sound_for (fun pr inputs => vp (vk_of_e key) pr inputs = Ok true) (holds (circuit true w0))) ->
    trusted_setup vk_of default_proof hs vs n k m rng false = Val (q, rng') -> vkd vk = Ok (vk_of_e (p_epochs q)) ->
    c_block first -> c_block last -> verify_c vk pf first last = Returns true None ->
    exists f l (h0 hl : header g2_curve), epoch_block_try_from sqrt2 g2_test first = Ok f /\ epoch_block_try_from sqrt2 g2_test last = Ok l /\
      (collides (first_bits h0) (enc_first f) \/ (exists agg, sums_to g2_to hl agg /\ collides (closing_bits hl ++ agg) (enc_last l)) \/
       (shows_first g2_of h0 f /\ shows_last g2_of hl l /\
        (eb_index l = (eb_index f + 1) mod 2 ^ 16 ->
         exists s H sks, hashes hl H /\ same_in_g1 s (smul (zsum sks) H) /\ zsum sks mod r <> 0 /\
           Forall (fun sk => 0 <= sk < r /\ sk <> 1 /\ exists Q, In Q (padded_keys f) /\
             (g2_times sk g2_generator = Q \/ (undetermined (snd (g2_coords (g2_neg Q))) /\ g2_times sk g2_generator = g2_neg Q))) sks /\
           Z.of_nat (length (padded_keys f)) - fqv (h_max h0) <= Z.of_nat (length sks) /\ fqv (h_max h0) mod 2 ^ 32 = eb_max_non_signers f))).
  Proof. intros n. apply consecutive_secrets. Qed.
End Secrets.

Print Assumptions C71_equation.
Print Assumptions C71_exact.
Print Assumptions C71_chain.
Print Assumptions C71_verified.
Print Assumptions C71_consecutive.
