(** C65: what becomes of the witness generation for the instance that [prove] makes of any chain of blocks. *)
From Verif Require Import Base Constants Group Field Curve BitsModel EncodingModel EncodingSpec Blake2 HasherModel PointModel HashCurveModel HashCurveSpec
  Circuit GadgetModel GadgetSpec HashGadgetModel HashGadgetSpec HashGadgetNative EpochCircuitModel EpochSpec ProverModel ProverSpec OutcomeSpec OutcomeProofs.

Section Outcome.
  Context (E1 E2 GT : grp) (e : E1 -> E2 -> GT) (gen1 : E1) (gen2 : E2).
  Context (of1 : apoint fq -> E1) (of2 : apoint fq2 -> E2) (to1 : E1 -> apoint fq) (to2 : E2 -> apoint fq2).
  Context (sqrt : fq -> option fq) (ped : bytes -> option fq) (compat pin debug : bool).
  Context (HP : Type) (helper_verify : HP -> list (list bool) -> bool).
  Notation circuit := (generate_constraints e gen1 gen2 of1 of2 to1 to2 sqrt ped compat pin debug helper_verify).
  Notation inputs_of := (public_inputs (coords_of to2) gsum gen2 blake2_out).
  Notation goes := (goes gen2 of1 to2 sqrt ped compat debug).
  Notation stops := (stops gen2 of1 to2 sqrt ped compat debug).
  Notation acceptable := (acceptable e gen1 gen2 of1 to2 sqrt ped compat).
  Implicit Types (w : validator_set_update E1 E2 HP) (b : epoch_block E2) (t : transition E1 E2) (helper : option (list (transition E1 E2) -> result HP)).

  (** Every step goes on or stops, in one way. *)
  Theorem C65_alternatives : forall n (steps : list (@step E2)),
    (Forall (goes n) steps \/ exists before s after r, steps = before ++ s :: after /\ Forall (goes n) before /\ stops n s r) /\
    (forall s r, goes n s -> ~ stops n s r) /\ (forall s r r', stops n s r -> stops n s r' -> r = r').
  Proof.
    intros n steps. split; [apply first_stop|]. split; [exact (goes_not_stops gen2 of1 to2 sqrt ped compat debug n)|exact (stops_fun gen2 of1 to2 sqrt ped compat debug n)].
  Qed.

  (** The first step that stops decides. *)
  Theorem C65_stops : forall n b ts t max helper w before s after r, sqrt_spec qmul sqrt -> of1 None = gz -> negation_law of1 -> Z.of_nat n < p -> good_block of2 to2 n b ->
    let dummies := (max - length (ts ++ [t]))%nat in
    steps_shaped gen2 of2 to2 ts dummies t -> prove gen1 gen2 helper (Z.of_nat n) b (ts ++ [t]) max = Ok w ->
    steps_of gen2 n ts dummies t = before ++ s :: after -> Forall (goes n) before -> stops n s r ->
    prover (circuit w) = failure r.
  Proof.
    intros n b ts t max helper w before s after r Hs Z N. exact (prove_stops e gen1 gen2 of1 of2 to1 to2 sqrt ped compat pin debug helper_verify Hs Z N n b ts t max helper w before s after r).
  Qed.

  (** Otherwise an assignment is made; it satisfies the constraints exactly if the chain is acceptable. *)
  Theorem C65_completes : forall n b ts t max helper w, sqrt_spec qmul sqrt -> of1 None = gz -> negation_law of1 -> gen2 <> gz -> Z.of_nat n < p ->
    (forall s, good_signature of1 to1 s) -> good_block of2 to2 n b ->
    let dummies := (max - length (ts ++ [t]))%nat in
    steps_shaped gen2 of2 to2 ts dummies t -> prove gen1 gen2 helper (Z.of_nat n) b (ts ++ [t]) max = Ok w ->
    Forall (goes n) (steps_of gen2 n ts dummies t) ->
    exists inputs satisfied, prover (circuit w) = Val (inputs, satisfied) /\
      (satisfied = true <-> acceptable b (steps_of gen2 n ts dummies t) (t_block t) (aggregate gen1 ts dummies t)) /\
      (eb_index (t_block t) <> 0 -> (exists c, to2 (sum (eb_keys (t_block t))) = Some c) -> inputs_of b (t_block t) = Ok (Some (map fqv inputs))).
  Proof.
    intros n b ts t max helper w Hs Z N Hg Hn GS. exact (prove_runs e gen1 gen2 of1 of2 to1 to2 sqrt ped compat pin debug helper_verify Hs Z N Hg n b ts t max helper w Hn GS).
  Qed.
End Outcome.
Print Assumptions C65_alternatives.
Print Assumptions C65_stops.
Print Assumptions C65_completes.
