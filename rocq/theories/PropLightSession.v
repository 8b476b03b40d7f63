(** C79: what a light client knows after any number of calls of the C function [verify], each starting with the block at which the one before ended.
    The proof system enters as in C77; a collision is exhibited by the headers that the assignment of a call contains. *)
From Verif Require Import Base Constants Group Field Curve BitsModel EncodingModel EncodingSpec HasherModel PointModel HashCurveModel HashCurveSpec CodecSpec
  Circuit GadgetSpec HashGadgetModel HashGadgetSpec HashGadgetNative EpochCircuitModel EpochSpec EpochCircuitSpec ProverModel ProverSpec FfiModel FfiSpec
  HelperModel SetupModel ShapeSpec LightSpec CurveGroups CurvesSpec OrderSpec TwistSpec SecretSpec KnowledgeSpec LightSessionSpec LightSessionProofs.

Section Light.
  Context (GT : grp) (e : g1_curve -> g2_curve -> GT) (sqrt : fq -> option fq) (ped : bytes -> option fq) (compat debug : bool).
  Context (P V key_e key_h R : Type) (vk_of : key_h -> V) (default_proof : P) (helper_verify : P * V -> list (list bool) -> bool).
  Context (sqrt2 : fq2 -> option fq2) (vkey proof : Type) (vkd : bytes -> result vkey) (pd : bytes -> result proof) (vp : vkey -> proof -> list Z -> result bool).
  Context (vk_of_e : key_e -> vkey) (extract : key_e -> proof -> list Z -> list cell).
  Notation circuit pin := (generate_constraints e g1_gen g2_gen g1_of g2_of g1_to g2_to sqrt ped compat pin debug helper_verify).
  Notation verify_c := (ffi_verify sqrt2 g2_test vkd pd vp blake2_out).
  Notation hashes := (hashes_to g1_of (native_ped ped) compat).
  Notation read := (epoch_block_try_from sqrt2 g2_test).

  (** Either a call exhibits a collision, or every call shows its two blocks and contains the aggregate of the signatures of the quorums in between,
      and every call starts with the committee that the call before it ended with. *)
  Theorem C79_session : exists c : Z, forall n k m rng hs vs q (rng' : R) vk first calls,
    curve_pairing e -> sqrt_spec q2mul sqrt2 -> Z.of_nat n < 2 ^ 32 -> (0 < k)%nat ->
    (forall w0 r0 key r1, vs w0 r0 = Val (key, r1) -> extractable (fun pr inputs => vp (vk_of_e key) pr inputs = Ok true) (circuit true w0) (extract key)) ->
    trusted_setup vk_of default_proof hs vs n k m rng false = Val (q, rng') -> vkd vk = Ok (vk_of_e (p_epochs q)) ->
    c_block first -> Forall c_block (map snd calls) -> session (fun pf a b => verify_c vk pf a b = Returns true None) first calls ->
    exists steps, from_session read pd (extract (p_epochs q)) first calls steps /\ Forall (step_in_assignment k) steps /\
      (Exists step_collides steps \/ (Forall (step_shows c hashes) steps /\ relayed steps)).
  Proof. exact (light_session GT e sqrt ped compat debug P V key_e key_h R vk_of default_proof helper_verify sqrt2 vkey proof vkd pd vp vk_of_e extract). Qed.

  (** Every call moves the index on by at least one and at most the number of epochs of the circuit, modulo 2^16. *)
  Theorem C79_progress : forall n k m rng hs vs q (rng' : R) vk first calls,
    curve_pairing e -> sqrt_spec q2mul sqrt2 -> Z.of_nat n < 2 ^ 32 -> (0 < k)%nat ->
    (forall w0 r0 key r1, vs w0 r0 = Val (key, r1) -> extractable (fun pr inputs => vp (vk_of_e key) pr inputs = Ok true) (circuit true w0) (extract key)) ->
    trusted_setup vk_of default_proof hs vs n k m rng false = Val (q, rng') -> vkd vk = Ok (vk_of_e (p_epochs q)) ->
    c_block first -> Forall c_block (map snd calls) -> session (fun pf a b => verify_c vk pf a b = Returns true None) first calls ->
    exists steps, from_session read pd (extract (p_epochs q)) first calls steps /\ Forall (step_in_assignment k) steps /\
      (Exists step_collides steps \/ exists t, (length calls <= t <= length calls * k)%nat /\ ef_index (latest first calls) = (ef_index first + Z.of_nat t) mod 2 ^ 16).
  Proof. exact (light_progress GT e sqrt ped compat debug P V key_e key_h R vk_of default_proof helper_verify sqrt2 vkey proof vkd pd vp vk_of_e extract). Qed.

  (** So, until the 16 bits of the index may have wrapped around, no sequence of accepted calls leads back to an index it has passed. *)
  Theorem C79_no_return : forall n k m rng hs vs q (rng' : R) vk first calls,
    curve_pairing e -> sqrt_spec q2mul sqrt2 -> Z.of_nat n < 2 ^ 32 -> (0 < k)%nat ->
    (forall w0 r0 key r1, vs w0 r0 = Val (key, r1) -> extractable (fun pr inputs => vp (vk_of_e key) pr inputs = Ok true) (circuit true w0) (extract key)) ->
    trusted_setup vk_of default_proof hs vs n k m rng false = Val (q, rng') -> vkd vk = Ok (vk_of_e (p_epochs q)) ->
    c_block first -> Forall c_block (map snd calls) -> session (fun pf a b => verify_c vk pf a b = Returns true None) first calls ->
    calls <> [] -> Z.of_nat (length calls) * Z.of_nat k < 2 ^ 16 -> ef_index (latest first calls) = ef_index first ->
    exists steps, from_session read pd (extract (p_epochs q)) first calls steps /\ Forall (step_in_assignment k) steps /\ Exists step_collides steps.
  Proof. exact (light_no_return GT e sqrt ped compat debug P V key_e key_h R vk_of default_proof helper_verify sqrt2 vkey proof vkd pd vp vk_of_e extract). Qed.
End Light.
(** The entropy that a call shows of its last block is not looked at when that block is the first of the next call: the answer of [verify] does not depend
    on the round of either block, on the epoch entropy of the first or on the parent entropy of the last. *)
Theorem C79_unseen : forall sqrt2 test vkey proof (vkd : bytes -> result vkey) (pd : bytes -> result proof) vp out vk pf a a' b b',
  differ_unseen_first a a' -> differ_unseen_last b b' ->
  ffi_verify sqrt2 test vkd pd vp out vk pf a b = ffi_verify sqrt2 test vkd pd vp out vk pf a' b'.
Proof. exact unseen. Qed.
Print Assumptions C79_session.
Print Assumptions C79_progress.
Print Assumptions C79_no_return.
Print Assumptions C79_unseen.
