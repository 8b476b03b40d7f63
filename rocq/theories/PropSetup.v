(** C63: the constraint system that [setup] makes keys for, that [prove] fills in and that [verify] checks proofs of.
    [same]: the same allocations and constraints, up to the values that the prover assigns. *)
From Verif Require Import Base Constants Group Instances Field Curve BitsModel EncodingModel EncodingSpec HasherModel PointModel HashCurveModel HashCurveSpec
  GadgetSpec Circuit GadgetModel HashGadgetModel EpochCircuitModel EpochSpec EpochCircuitSpec ProverModel ProverSpec HelperModel HelperSpec PedersenModel FfiModel FfiSpec LightSpec LightProofs
  SetupModel ShapeSpec ShapeProofs SetupProofs.

Section Setup.
  Context (E1 E2 GT : grp) (e : E1 -> E2 -> GT) (gen1 : E1) (gen2 : E2).
  Context (of1 : apoint fq -> E1) (of2 : apoint fq2 -> E2) (to1 : E1 -> apoint fq) (to2 : E2 -> apoint fq2).
  Context (sqrt : fq -> option fq) (ped : bytes -> option fq) (compat pin debug : bool).
  Context (P V key_e key_h R : Type) (vk_of : key_h -> V) (default_proof : P) (helper_verify : P * V -> list (list bool) -> bool).
  Notation circuit_pin pin := (generate_constraints e gen1 gen2 of1 of2 to1 to2 sqrt ped compat pin debug helper_verify).
  Notation circuit := (circuit_pin pin).
  Notation empty := (validator_set_update_empty (S := E1) (K := E2)).
  Implicit Types (w : validator_set_update E1 E2 (P * V)) (ts : list (transition E1 E2)) (q : parameters key_e key_h).

  (** no value of an instance enters the constraints: the numbers of keys, bits and epochs determine them, *)
  Theorem C63_same_constraints : forall w w', dims w = dims w' -> same (circuit w) (circuit w').
  Proof. exact (same_circuit e gen1 gen2 of1 of2 to1 to2 sqrt ped compat pin debug helper_verify). Qed.
  (** hence the statement, *)
  Theorem C63_same_statement : forall w w' inputs, dims w = dims w' -> holds (circuit w) inputs <-> holds (circuit w') inputs.
  Proof. intros w w' inputs D. apply same_holds, C63_same_constraints, D. Qed.
  (** and under every assignment the allocations and constraints come in the same sequence. *)
  Theorem C63_layout : forall w w', by_length ped -> dims w = dims w' -> same_layout (fun i i' => length i = length i') (circuit w) (circuit w').
  Proof. intros w w' L D. apply alike_layout. exact (al_circuit e gen1 gen2 of1 of2 to1 to2 sqrt ped compat pin debug helper_verify L w w' D). Qed.
  (** With more epochs there are more of them. *)
  Theorem C63_more_epochs : forall n w w' l l' x x', by_length ped -> sizes n w -> sizes n w' -> dim_helper (dims w) = dim_helper (dims w') ->
    pass (circuit w) l (Val x) -> pass (circuit w') l' (Val x') -> (length (vsu_epochs w) < length (vsu_epochs w'))%nat -> (length l < length l')%nat.
  Proof. intros n w w' l l' x x' L. exact (more_epochs e gen1 gen2 of1 of2 to1 to2 sqrt ped compat pin debug helper_verify L n w w' l l' x x'). Qed.

  (** [prove] with the parameters of [trusted_setup], as many epochs and everywhere as many keys as given there, fills in the
      constraint system of the key, with the verifying key of the helper that is built into it. *)
  Theorem C63_setup : forall n k m rng hs vs (flag : bool) q (rng' : R) create b ts w, Z.of_nat n < 2 ^ 32 ->
    trusted_setup vk_of default_proof hs vs n k m rng flag = Val (q, rng') ->
    length (eb_keys b) = n -> Forall (fun t : transition E1 E2 => length (eb_keys (t_block t)) = n /\ length (t_bitmap t) = n) ts ->
    prove gen1 gen2 (helper_of vk_of create q) (Z.of_nat n) b ts k = Ok w ->
    exists w0 rng0, vs w0 rng0 = Val (p_epochs q, rng') /\ same (circuit w0) (circuit w) /\ option_map snd (vsu_helper w0) = option_map snd (vsu_helper w) /\
      match p_hash_to_bits q with Some key => flag = true /\ hs (hash_to_bits_empty k) rng = Val (key, rng0) | None => flag = false /\ rng0 = rng end.
  Proof. intros n k m rng hs vs flag q rng' create b ts w. apply (setup_prove e gen1 gen2 of1 of2 to1 to2 sqrt ped compat pin debug vk_of default_proof helper_verify). Qed.
  (** The threshold given to [setup] has no influence: it is a value. *)
  Theorem C63_threshold : forall n k m m' (vk : option V) d d', same (circuit (empty d n k m vk)) (circuit (empty d' n k m' vk)).
  Proof. intros. apply (setup_threshold e gen1 gen2 of1 of2 to1 to2 sqrt ped compat pin debug helper_verify). reflexivity. Qed.

  (** The second circuit: [prove] fits the helper key exactly if there are as many transitions as epochs, i.e. no
      dummies; otherwise not even the numbers of public inputs agree. *)
  Theorem C63_helper_fits : forall coords_of pedersen ts shape k, (forall m d, pedersen m = Ok d -> length d = 48%nat) ->
    helper_messages gen2 coords_of pedersen ts = Ok shape ->
    (same (hash_to_bits_circuit (hash_to_bits_empty k)) (hash_to_bits_circuit shape) <-> length ts = k) /\
    (forall i i', holds (hash_to_bits_circuit (hash_to_bits_empty k)) i -> holds (hash_to_bits_circuit shape) i' -> (length i = length i' <-> length ts = k)).
  Proof. intros co pd ts shape k. apply helper_fits. Qed.

  (** C62 for the keys of [setup]: if key generation is sound for the circuits it is given, then so is what [verify]
      certifies under a key for [k] epochs. *)
  Theorem C63_certifies : forall sqrt2 in_subgroup vkey proof (vkd : bytes -> result vkey) (pd : bytes -> result proof) vp (vk_of_e : key_e -> vkey)
      n k m rng hs vs q (rng' : R) vk pf first last,
    linear_at e gen2 -> gen2 <> gz -> sqrt_spec q2mul sqrt2 -> Z.of_nat n < 2 ^ 32 -> (0 < k)%nat ->
    (forall w0 r0 key r1, vs w0 r0 = Val (key, r1) -> sound_for (fun pr inputs => vp (vk_of_e key) pr inputs = Ok true) (holds (circuit_pin true w0))) ->
    trusted_setup vk_of default_proof hs vs n k m rng false = Val (q, rng') -> vkd vk = Ok (vk_of_e (p_epochs q)) ->
    c_block first -> c_block last ->
    ffi_verify sqrt2 in_subgroup vkd pd vp blake2_out vk pf first last = Returns true None ->
    exists f l h0 hs hl pairs s, epoch_block_try_from sqrt2 in_subgroup first = Ok f /\ epoch_block_try_from sqrt2 in_subgroup last = Ok l /\
      (length (hs ++ [hl]) <= k)%nat /\ certified e gen2 (opens_to of2) (hashes_to of1 (native_ped ped) compat) n h0 (hs ++ [hl]) pairs s /\
      (shows_first of2 h0 f \/ collides (first_bits h0) (enc_first f)) /\
      (shows_last of2 hl l \/ exists agg, sums_to to2 hl agg /\ collides (closing_bits hl ++ agg) (enc_last l)).
  Proof.
    intros sqrt2 in_subgroup vkey proof vkd pd vp vk_of_e n k m rng hs vs q rng' vk pf first last B G S N K SG U D CF CL X.
    unfold trusted_setup, setup in U. destruct (vs (validator_set_update_empty default_proof n k m None) rng) as [[key r1]|er|] eqn:EV; try discriminate U. injection U as <- <-. cbn [p_epochs] in D.
    destruct (empty_sizes (E1 := E1) (E2 := E2) default_proof n k m (@None V) N K) as [SZ LK].
    destruct (verified E1 E2 GT e gen1 gen2 of1 of2 to1 to2 sqrt ped compat debug (P * V) helper_verify sqrt2 in_subgroup vkd pd vp n (validator_set_update_empty default_proof n k m None) (vk_of_e key) vk pf first last B G S SZ eq_refl
      (SG _ _ _ _ EV) CF CL D X) as (f & l & h0 & l' & hl & pairs & s & Y). rewrite LK in Y. exists f, l, h0, l', hl, pairs, s. exact Y.
  Qed.
End Setup.
(** The Pedersen hash is one of those that C63_layout speaks of. *)
Theorem C63_pedersen_by_length : forall gens, by_length (crh_x gens).
Proof. exact crh_x_by_length. Qed.
Print Assumptions C63_same_constraints.
Print Assumptions C63_same_statement.
Print Assumptions C63_layout.
Print Assumptions C63_more_epochs.
Print Assumptions C63_setup.
Print Assumptions C63_threshold.
Print Assumptions C63_helper_fits.
Print Assumptions C63_certifies.
Print Assumptions C63_pedersen_by_length.
