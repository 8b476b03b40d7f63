(** C77: what whoever makes an accepted epoch proof knows.  C62, C63 and C71 say that headers and signatures exist; signatures always exist
    (C77_signatures_exist), so the point is that an assignment of the circuit contains them.  The proof system enters through [extractable]:
    from an accepted proof, [extract] computes an assignment. *)
From Verif Require Import Base Constants Group Field Curve BitsModel EncodingModel EncodingSpec HasherModel PointModel HashCurveModel HashCurveSpec CodecSpec
  Circuit GadgetSpec HashGadgetModel HashGadgetSpec HashGadgetNative EpochCircuitModel EpochSpec EpochCircuitSpec ProverModel ProverSpec FfiModel FfiSpec
  HelperModel SetupModel ShapeSpec LightSpec ShapeProofs SetupProofs PropSetup CurveGroups CurvesSpec OrderSpec TwistSpec SecretSpec KnowledgeSpec KnowledgeProofs KnowledgeLight.

(** Assignments are what [holds] quantifies over. *)
Theorem C77_assignments : forall A (c : circ A) x, holds c x <-> exists w, satisfies c w x.
Proof. intros A c x. split; [apply holds_sat|intros [w H]; exact (sat_holds c w x H)]. Qed.
(** For every list of hashes and keys of G2 some point is a valid aggregate signature. *)
Theorem C77_signatures_exist : forall (GT : grp) (e : g1_curve -> g2_curve -> GT) pairs, curve_pairing e -> Forall (fun '(_, K) => in_g2 (g2_to K)) pairs ->
  exists s, signed e g2_gen s pairs.
Proof. intros GT e pairs. apply always_signed. Qed.

Section Circuits.
  Context (E1 E2 GT : grp) (e : E1 -> E2 -> GT) (gen1 : E1) (gen2 : E2).
  Context (of1 : apoint fq -> E1) (of2 : apoint fq2 -> E2) (to1 : E1 -> apoint fq) (to2 : E2 -> apoint fq2).
  Context (sqrt : fq -> option fq) (ped : bytes -> option fq) (compat debug : bool).
  Context (HP : Type) (helper_verify : HP -> list (list bool) -> bool).
  Notation circuit pin := (generate_constraints e gen1 gen2 of1 of2 to1 to2 sqrt ped compat pin debug helper_verify).
  (** The assignments are those of the setup, whatever values an instance has. *)
  Theorem C77_same_assignments : forall pin (w w' : validator_set_update E1 E2 HP) tape inputs, dims w = dims w' ->
    satisfies (circuit pin w) tape inputs <-> satisfies (circuit pin w') tape inputs.
  Proof. intros pin w w' tape inputs D. apply same_sat. exact (same_circuit e gen1 gen2 of1 of2 to1 to2 sqrt ped compat pin debug helper_verify w w' D). Qed.
  (** An assignment contains the headers and the signature of the statement of the circuit (C44). *)
  Theorem C77_contains : forall n (w : validator_set_update E1 E2 HP) tape inputs, gen2 <> gz -> sizes n w -> satisfies (circuit true w) tape inputs ->
    exists h0 headers last pairs s, length (headers ++ [last]) = length (vsu_epochs w) /\
      epoch_assignment e gen1 gen2 to2 (opens_to of2) (hashes_in of1 ped compat (constrained w)) (on_g1_point of1) (h_entropy h0 <> q0) n inputs h0 headers last pairs s /\
      contains_header of2 tape h0 /\ Forall (contains_header of2 tape) (headers ++ [last]) /\ contains_g1 of1 tape s.
  Proof. exact (sat_statement e gen1 gen2 of1 of2 to1 to2 sqrt ped compat debug helper_verify). Qed.
End Circuits.

Section Known.
  Context (GT : grp) (e : g1_curve -> g2_curve -> GT) (sqrt : fq -> option fq) (ped : bytes -> option fq) (compat debug : bool).
  Context (P V key_e key_h R : Type) (vk_of : key_h -> V) (default_proof : P) (helper_verify : P * V -> list (list bool) -> bool).
  Context (sqrt2 : fq2 -> option fq2) (vkey proof : Type) (vkd : bytes -> result vkey) (pd : bytes -> result proof) (vp : vkey -> proof -> list Z -> result bool).
  Context (vk_of_e : key_e -> vkey) (extract : key_e -> proof -> list Z -> list cell).
  Notation circuit pin := (generate_constraints e g1_gen g2_gen g1_of g2_of g1_to g2_to sqrt ped compat pin debug helper_verify).
  Notation verify_c := (ffi_verify sqrt2 g2_test vkd pd vp blake2_out).
  Notation hashes := (hashes_to g1_of (native_ped ped) compat).

  (** The C function [verify] returned true: the assignment extracted from the proof contains a point from which the exact aggregate of
      the signatures of the quorums, on headers that it also contains, is computed: take away the generator once per dummy, multiply by a fixed number. *)
  Theorem C77_known : exists c : Z, forall n k m rng hs vs q (rng' : R) vk pf first last,
    curve_pairing e -> sqrt_spec q2mul sqrt2 -> Z.of_nat n < 2 ^ 32 -> (0 < k)%nat ->
    (forall w0 r0 key r1, vs w0 r0 = Val (key, r1) -> extractable (fun pr inputs => vp (vk_of_e key) pr inputs = Ok true) (circuit true w0) (extract key)) ->
    trusted_setup vk_of default_proof hs vs n k m rng false = Val (q, rng') -> vkd vk = Ok (vk_of_e (p_epochs q)) ->
    c_block first -> c_block last -> verify_c vk pf first last = Returns true None ->
    exists f l pr inputs (h0 hl : header g2_curve) hs s d, epoch_block_try_from sqrt2 g2_test first = Ok f /\ epoch_block_try_from sqrt2 g2_test last = Ok l /\ pd pf = Ok pr /\
      public_inputs g2_coords g2_sum g2_generator blake2_out f l = Ok (Some inputs) /\ (length (hs ++ [hl]) + d = k)%nat /\
      Forall (contains_header g2_of (extract (p_epochs q) pr inputs)) (h0 :: hs ++ [hl]) /\ contains_g1 g1_of (extract (p_epochs q) pr inputs) s /\
      (collides (first_bits h0) (enc_first f) \/ (exists agg, sums_to g2_to hl agg /\ collides (closing_bits hl ++ agg) (enc_last l)) \/
       (shows_first g2_of h0 f /\ shows_last g2_of hl l /\ eb_index l = (eb_index f + Z.of_nat (length (hs ++ [hl]))) mod 2 ^ 16 /\
        (Forall keys_in_g2 hs -> exists ps, signed_chain hashes (committee_of h0) (hs ++ [hl]) ps /\ smul c (ga s (gn (smul (Z.of_nat d) g1_gen))) = aggregate_of ps))).
  Proof. destruct to_g1 as (c & Hc & Kc). exists c. intros n. apply (known_secrets GT e sqrt ped compat debug P V key_e key_h R vk_of default_proof helper_verify sqrt2 vkey proof vkd pd vp vk_of_e extract c Hc Kc n). Qed.

  (** Blocks with consecutive indices: that point gives the signature that a quorum of the validators of the first block makes, with their
      private keys, of the hash of the header that shows the last block. *)
  Theorem C77_known_consecutive : exists c : Z, forall n k m rng hs vs q (rng' : R) vk pf first last,
    curve_pairing e -> sqrt_spec q2mul sqrt2 -> Z.of_nat n < 2 ^ 32 -> (0 < k)%nat -> Z.of_nat k < 2 ^ 16 ->
    (forall w0 r0 key r1, vs w0 r0 = Val (key, r1) -> extractable (fun pr inputs => vp (vk_of_e key) pr inputs = Ok true) (circuit true w0) (extract key)) ->
    trusted_setup vk_of default_proof hs vs n k m rng false = Val (q, rng') -> vkd vk = Ok (vk_of_e (p_epochs q)) ->
    c_block first -> c_block last -> verify_c vk pf first last = Returns true None ->
    exists f l pr inputs (h0 hl : header g2_curve) s, epoch_block_try_from sqrt2 g2_test first = Ok f /\ epoch_block_try_from sqrt2 g2_test last = Ok l /\ pd pf = Ok pr /\
      public_inputs g2_coords g2_sum g2_generator blake2_out f l = Ok (Some inputs) /\
      contains_header g2_of (extract (p_epochs q) pr inputs) h0 /\ contains_header g2_of (extract (p_epochs q) pr inputs) hl /\ contains_g1 g1_of (extract (p_epochs q) pr inputs) s /\
      (collides (first_bits h0) (enc_first f) \/ (exists agg, sums_to g2_to hl agg /\ collides (closing_bits hl ++ agg) (enc_last l)) \/
       (shows_first g2_of h0 f /\ shows_last g2_of hl l /\
        (eb_index l = (eb_index f + 1) mod 2 ^ 16 ->
         exists H sks, hashes hl H /\ smul c (ga s (gn (smul (Z.of_nat k - 1) g1_gen))) = smul (zsum sks) H /\ zsum sks mod r <> 0 /\
           Forall (fun sk => 0 <= sk < r /\ sk <> 1 /\ exists Q, In Q (padded_keys f) /\
             (g2_times sk g2_generator = Q \/ (undetermined (snd (g2_coords (g2_neg Q))) /\ g2_times sk g2_generator = g2_neg Q))) sks /\
           Z.of_nat (length (padded_keys f)) - fqv (h_max h0) <= Z.of_nat (length sks)))).
  Proof. destruct to_g1 as (c & Hc & Kc). exists c. intros n. apply (known_consecutive GT e sqrt ped compat debug P V key_e key_h R vk_of default_proof helper_verify sqrt2 vkey proof vkd pd vp vk_of_e extract c Hc Kc n). Qed.
End Known.

Print Assumptions C77_assignments.
Print Assumptions C77_signatures_exist.
Print Assumptions C77_same_assignments.
Print Assumptions C77_contains.
Print Assumptions C77_known.
Print Assumptions C77_known_consecutive.
