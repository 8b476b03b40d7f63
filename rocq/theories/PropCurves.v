(** C67: the epoch theorems on the curves themselves.  [g1_curve], [g2_curve]: the groups of all points of BLS12-377's curve and
    twist (C66); [raw]: a block with the coordinates of its keys; [as_ffi]: what C passes.  Of the pairing [e] only [linear_at]
    is used; the proof system enters through [complete_groth] and [sound_for]. *)
From Verif Require Import Base Constants Group Field Curve BitsModel EncodingModel EncodingSpec HasherModel PointModel HashCurveModel HashCurveSpec CodecSpec
  Circuit GadgetSpec HashGadgetModel HashGadgetSpec HashGadgetNative EpochCircuitModel EpochSpec EpochCircuitSpec ProverModel ProverSpec FfiModel FfiSpec
  HelperModel SetupModel ShapeSpec LightSpec CurveGroups CurvesSpec CurvesProofs.

(** What the theorems C37-C65 ask of the groups holds of the curves. *)
Theorem C67_curves : g1_of None = gz /\ negation_law g1_of /\ g2_gen <> gz /\ (forall s, good_signature g1_of g1_to s) /\ (forall s, on_g1_point g1_of s) /\
  (forall K, good_key g2_of g2_to K) /\ (forall P, on_twist P = true -> good_key g2_of g2_to (g2_of P) /\ g2_to (g2_of P) = P).
Proof. exact curves_good. Qed.
(** The encodings there are the native ones of the coordinates. *)
Theorem C67_native : forall b l, encode_inner_to_bytes_cip22 (coords_of g2_to) g2_gen b = enc_signed (raw b) /\
  encode_first_epoch_to_bytes_cip22 (coords_of g2_to) g2_gen b = enc_first (raw b) /\
  encode_last_epoch_to_bytes_with_aggregated_pk_cip22 (coords_of g2_to) gsum g2_gen b = enc_last (raw b) /\
  public_inputs (coords_of g2_to) gsum g2_gen blake2_out b l = public_inputs g2_coords g2_sum g2_generator blake2_out (raw b) (raw l).
Proof. intros b l. split; [apply signed_raw|]. split; [apply first_raw|]. split; [apply last_raw|apply inputs_raw]. Qed.

Section Curves.
  Context (GT : grp) (e : g1_curve -> g2_curve -> GT) (sqrt : fq -> option fq) (ped : bytes -> option fq) (compat debug : bool).
  Context (P V key_e key_h R : Type) (vk_of : key_h -> V) (default_proof : P) (helper_verify : P * V -> list (list bool) -> bool).
  Context (sqrt2 : fq2 -> option fq2) (in_subgroup : fq2 * fq2 -> bool).
  Context (vkey proof : Type) (vkd : bytes -> result vkey) (pd : bytes -> result proof) (vp : vkey -> proof -> list Z -> result bool) (vk_of_e : key_e -> vkey).
  Notation circuit pin := (generate_constraints e g1_gen g2_gen g1_of g2_of g1_to g2_to sqrt ped compat pin debug helper_verify).
  Notation honest_chain := (honest e g2_gen g2_of g2_to (block_hash g2_gen g1_of g2_to sqrt ped compat)).
  Notation padding := (padding_ok g2_gen g1_of g2_of g2_to sqrt ped compat).
  Notation verify_c := (ffi_verify sqrt2 in_subgroup vkd pd vp blake2_out).

  (** From end to end: the proof that [prove] makes of an honest chain with the parameters of [trusted_setup] is accepted
      by the C function [verify] for the serialized first and last block. *)
  Theorem C67_accepted : forall pin create n k m rng hs vs (flag : bool) q (rng' : R) create_h vk b ts t,
    linear_at e g2_gen -> sqrt_spec qmul sqrt -> sqrt_spec q2mul sqrt2 -> Z.of_nat n < 2 ^ 32 ->
    complete_groth (circuit pin) vs vk_of_e create pd vp ->
    trusted_setup vk_of default_proof hs vs n k m rng flag = Val (q, rng') -> vkd vk = Ok (vk_of_e (p_epochs q)) ->
    good_block g2_of g2_to n b -> honest_chain (has_entropy b) n b (ts ++ [t]) -> sum (eb_keys (t_block t)) <> gz ->
    (length (ts ++ [t]) <= k)%nat -> ((length (ts ++ [t]) < k)%nat -> padding n (last_block b ts)) ->
    match p_hash_to_bits q with None => True | Some key => exists pr, create_h key (ts ++ [t]) = Ok pr end ->
    Forall (valid_key in_subgroup) (map g2_to (eb_keys b)) -> Forall (valid_key in_subgroup) (map g2_to (eb_keys (t_block t))) ->
    exists w bytes, prove g1_gen g2_gen (helper_of vk_of create_h q) (Z.of_nat n) b (ts ++ [t]) k = Ok w /\ create (p_epochs q) w = Ok bytes /\
      verify_c vk bytes (as_ffi (raw b)) (as_ffi (raw (t_block t))) = Returns true None.
  Proof. intros pin. apply accepted. Qed.

  (** Conversely, for two blocks with consecutive indices that [verify] accepts under such a key: unless the messages at hand collide,
      a quorum of the first block's validators (up to the sign of keys with an undetermined sign bit, and never a padding key)
      has signed a header that shows the last block. *)
  Theorem C67_consecutive : forall n k m rng hs vs q (rng' : R) vk pf first last,
    linear_at e g2_gen -> sqrt_spec q2mul sqrt2 -> Z.of_nat n < 2 ^ 32 -> (0 < k)%nat -> Z.of_nat k < 2 ^ 16 ->
    (forall w0 r0 key r1, vs w0 r0 = Val (key, r1) -> sound_for (fun pr inputs => vp (vk_of_e key) pr inputs = Ok true) (holds (circuit true w0))) ->
    trusted_setup vk_of default_proof hs vs n k m rng false = Val (q, rng') -> vkd vk = Ok (vk_of_e (p_epochs q)) ->
    c_block first -> c_block last -> verify_c vk pf first last = Returns true None ->
    exists f l (h0 hl : header g2_curve), epoch_block_try_from sqrt2 in_subgroup first = Ok f /\ epoch_block_try_from sqrt2 in_subgroup last = Ok l /\
      (collides (first_bits h0) (enc_first f) \/ (exists agg, sums_to g2_to hl agg /\ collides (closing_bits hl ++ agg) (enc_last l)) \/
       (shows_first g2_of h0 f /\ shows_last g2_of hl l /\
        (eb_index l = (eb_index f + 1) mod 2 ^ 16 ->
         exists s H signing, hashes_to g1_of (native_ped ped) compat hl H /\ e s g2_gen = e H (sum signing) /\ sum signing <> gz /\
           Forall (fun K => g2_to K <> g2_generator /\ exists Q, In Q (padded_keys f) /\ on_twist Q = true /\
             (g2_to K = Q \/ (undetermined (snd (g2_coords (g2_neg Q))) /\ g2_to K = g2_neg Q))) signing /\
           Z.of_nat (length (padded_keys f)) - fqv (h_max h0) <= Z.of_nat (length signing) /\ fqv (h_max h0) mod 2 ^ 32 = eb_max_non_signers f))).
  Proof. intros n. apply consecutive. Qed.
End Curves.
Print Assumptions C67_curves.
Print Assumptions C67_native.
Print Assumptions C67_accepted.
Print Assumptions C67_consecutive.
