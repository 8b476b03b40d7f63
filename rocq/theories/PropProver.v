(** C37, C46-C48: the circuit instances that the prover builds.  [prover c = Val (x, true)]: the assignment made by
    the witness generators satisfies every constraint of [c] and its output is [x]. *)
From Coq Require Import Permutation.
From Verif Require Import Base Constants Group Field Curve BitsModel BitsProofs EncodingModel EncodingSpec EncodingProofs Blake2 HasherModel HasherSpec PointModel HashCurveModel HashCurveSpec CodecSpec
  Circuit CircuitFacts GadgetModel GadgetSpec HashGadgetModel HashGadgetSpec HashGadgetProofs HashGadgetNative EpochCircuitModel EpochSpec EpochCircuitSpec EpochProofs EpochCircuitProofs EpochChainProofs
  ProverModel ProverSpec ProverProofs.

Section Prover.
  Context (E1 E2 GT : grp) (e : E1 -> E2 -> GT) (gen1 : E1) (gen2 : E2).
  Context (of1 : apoint fq -> E1) (of2 : apoint fq2 -> E2) (to1 : E1 -> apoint fq) (to2 : E2 -> apoint fq2).
  Context (sqrt : fq -> option fq) (ped : bytes -> option fq) (compat pin debug : bool).
  Context (HP : Type) (helper_verify : HP -> list (list bool) -> bool).
  Notation circuit := (generate_constraints e gen1 gen2 of1 of2 to1 to2 sqrt ped compat pin debug helper_verify).
  Notation inputs_of := (public_inputs (coords_of to2) gsum gen2 blake2_out).
  Notation honest_chain := (honest e gen2 of2 to2 (block_hash gen2 of1 to2 sqrt ped compat)).
  Notation padding := (padding_ok gen2 of1 of2 to2 sqrt ped compat).
  Implicit Types (w : validator_set_update E1 E2 HP) (b : epoch_block E2) (t : transition E1 E2) (helper : option (list (transition E1 E2) -> result HP)).

  (** ** C37: a block with fewer keys than its maximum is padded by the native encoding only *)
  Theorem C37_unpadded_refuted : forall n b maximum, good_block of2 to2 n b -> Z.of_nat n < maximum ->
    exists v, prover (to_bits of2 to2 pin (to_epoch_data (set_maximum maximum b))) = Val (v, true) /\
      v_bits v <> fst (encode_inner_to_bits_cip22 (coords_of to2) gen2 (set_maximum maximum b)) /\
      v_first v <> encode_to_bits_cip22 (coords_of to2) gen2 (set_maximum maximum b) First /\
      v_last v <> encode_to_bits_cip22 (coords_of to2) gen2 (set_maximum maximum b) Last.
  Proof. intros n b m G L. eexists. split; [apply (to_bits_prover of2 to2 pin n b G)|]. exact (unpadded gen2 of2 to2 n b m G L). Qed.

  (** ** C46 (and C47: any number [max - length] of dummies) *)
  Theorem C46_complete : forall n b ts t max helper, sqrt_spec qmul sqrt -> of1 None = gz -> negation_law of1 -> gen2 <> gz ->
    Z.of_nat n < p -> linear_at e gen2 -> (forall s, good_signature of1 to1 s) ->
    good_block of2 to2 n b -> honest_chain (has_entropy b) n b (ts ++ [t]) -> (exists c, to2 (sum (eb_keys (t_block t))) = Some c) ->
    (length (ts ++ [t]) <= max)%nat -> ((length (ts ++ [t]) < max)%nat -> padding n (last_block b ts)) ->
    match helper with None => True | Some f => exists h, f (ts ++ [t]) = Ok h end ->
    exists w inputs, prove gen1 gen2 helper (Z.of_nat n) b (ts ++ [t]) max = Ok w /\ length (vsu_epochs w) = max /\
      prover (circuit w) = Val (inputs, true) /\ holds (circuit w) inputs /\ inputs_of b (t_block t) = Ok (Some (map fqv inputs)).
  Proof.
    intros n b ts t max helper Hs Z N Hg Hn B GS G HO Ec L PD HH.
    destruct (prove_complete e gen1 gen2 of1 of2 to1 to2 sqrt ped compat pin debug helper_verify Hs Z N Hg n b ts t max helper Hn B GS G HO Ec L PD HH) as (w & i & P & LW & R & I).
    exists w, i. split; [exact P|]. split; [exact LW|]. split; [exact R|]. split; [apply prover_holds, R|exact I].
  Qed.

  (** ** C47 *)
  Theorem C47_same_inputs : forall n b ts t max helper, sqrt_spec qmul sqrt -> of1 None = gz -> negation_law of1 -> gen2 <> gz ->
    Z.of_nat n < p -> linear_at e gen2 -> (forall s, good_signature of1 to1 s) ->
    good_block of2 to2 n b -> honest_chain (has_entropy b) n b (ts ++ [t]) -> (exists c, to2 (sum (eb_keys (t_block t))) = Some c) ->
    (length (ts ++ [t]) <= max)%nat -> padding n (last_block b ts) ->
    match helper with None => True | Some f => exists h, f (ts ++ [t]) = Ok h end ->
    exists w w' inputs, prove gen1 gen2 helper (Z.of_nat n) b (ts ++ [t]) (length (ts ++ [t])) = Ok w /\ prove gen1 gen2 helper (Z.of_nat n) b (ts ++ [t]) max = Ok w' /\
      length (vsu_epochs w') = max /\ prover (circuit w) = Val (inputs, true) /\ prover (circuit w') = Val (inputs, true).
  Proof.
    intros n b ts t max helper Hs Z N Hg Hn B GS G HO Ec L PD HH.
    destruct (C46_complete n b ts t (length (ts ++ [t])) helper) as (w & i & P & _ & R & _ & I); try assumption; try lia; try (intros; lia).
    destruct (C46_complete n b ts t max helper) as (w' & i' & P' & L' & R' & _ & I'); try assumption; try (intros _; assumption).
    exists w, w', i. assert (i = i') as <-.
    { rewrite I in I'. apply ok_inj in I'. injection I' as E. apply map_injective in E; [exact E|exact fq_ext]. }
    auto 10.
  Qed.
  (** in any assignment, not only the prover's *)
  Theorem C47_insert : forall (opens : E2 -> list bool -> Prop) hashes (point : E1 -> Prop) linked n inputs h0 before after last pairs s dummies bitmap signing, linear_at e gen2 -> (forall s : E1, point s) ->
    epoch_assignment e gen1 gen2 to2 opens hashes point linked n inputs h0 (before ++ after) last pairs s ->
    quorum gen2 (committee_after (committee_of h0) before) bitmap signing ->
    Forall (fun h => well_formed opens n h /\ h_index h = q0 /\ exists H, hashes h H) dummies ->
    exists pairs', epoch_assignment e gen1 gen2 to2 opens hashes point linked n inputs h0 (before ++ dummies ++ after) last pairs' (ga s (sum (repeat gen1 (length dummies)))).
  Proof. intros o H pt l n i h0 hs1 hs2 la pairs s ds bm sg [B1 B2] AP A Q F. exact (insert_dummies e gen1 gen2 to2 o H pt B1 l n i h0 hs1 hs2 la pairs s ds bm sg B2 AP A Q F). Qed.
  Theorem C47_remove : forall (opens : E2 -> list bool -> Prop) hashes (point : E1 -> Prop) linked n inputs h0 headers last pairs s, linear_at e gen2 -> (forall s : E1, point s) ->
    epoch_assignment e gen1 gen2 to2 opens hashes point linked n inputs h0 headers last pairs s ->
    exists pairs' s', epoch_assignment e gen1 gen2 to2 opens hashes point linked n inputs h0 (real_headers headers) last pairs' s'.
  Proof. intros o H pt l n i h0 hs la pairs s [B1 B2] AP A. exact (remove_dummies e gen1 gen2 to2 o H pt B1 l n i h0 hs la pairs s B2 AP A). Qed.
  (** a validator with the padding key in the last committee but one: the padded assignment is not satisfied *)
  Theorem C47_padding_key : forall n b ts t max helper w inputs, sqrt_spec qmul sqrt -> of1 None = gz -> negation_law of1 ->
    Z.of_nat n < p -> good_block of2 to2 n b -> honest_chain (has_entropy b) n b (ts ++ [t]) ->
    (length (ts ++ [t]) < max)%nat -> In gen2 (eb_keys (last_block b ts)) ->
    prove gen1 gen2 helper (Z.of_nat n) b (ts ++ [t]) max = Ok w -> prover (circuit w) <> Val (inputs, true).
  Proof.
    intros n b ts t max helper w inputs Hs Z N. apply (padding_fails e gen1 gen2 of1 of2 to1 to2 sqrt ped compat pin debug helper_verify Hs Z N).
  Qed.

  (** ** C48 *)
  Theorem C48_panics : forall helper num b ts max, (forall f, helper = Some f -> exists h, f ts = Ok h) ->
    prove gen1 gen2 helper num b ts max = Panic <-> (ts = [] /\ (0 < max)%nat) \/ (max < length ts)%nat.
  Proof. exact (prove_panics_iff gen1 gen2). Qed.
  Theorem C48_updates : forall helper n b ts t max w, prove gen1 gen2 helper (Z.of_nat n) b (ts ++ [t]) max = Ok w ->
    length (vsu_epochs w) = max /\ exists dummies, vsu_epochs w = map to_update ts ++ dummies ++ [to_update t] /\
      Forall (fun u => u = to_update (mk_transition (dummy_block gen2 n) gen1 (repeat true n))) dummies /\
      vsu_initial w = to_epoch_data b /\ vsu_signature w = Some (sum (map t_signature ts ++ repeat gen1 (length dummies) ++ [t_signature t])).
  Proof. exact (prove_shape gen1 gen2). Qed.
End Prover.

Print Assumptions C37_unpadded_refuted.
Print Assumptions C46_complete.
Print Assumptions C47_same_inputs.
Print Assumptions C47_insert.
Print Assumptions C47_remove.
Print Assumptions C47_padding_key.
Print Assumptions C48_panics.
Print Assumptions C48_updates.
