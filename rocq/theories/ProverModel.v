(** Model of crates/epoch-snark/src/api/prover.rs lines 22-82 and 120-160: the circuit instance built by
    [prove].  Not modelled: Groth16 itself; the helper proof is the result of a function of the transitions. *)
From Verif Require Import Base Constants Group Field BitsModel EncodingModel Circuit EpochCircuitModel.

Section Prover.
  Context {E1 E2 : grp} (gen1 : E1) (gen2 : E2) {H : Type}.
  (** epoch_block.rs lines 22-30 *)
  Record transition := mk_transition { t_block : epoch_block E2; t_signature : E1; t_bitmap : list bool }.

  (** lines 120-133: no padding up to [maximum_validators] *)
  Definition to_epoch_data (b : epoch_block E2) : epoch_data E2 :=
    mk_data (eb_max_non_signers b) (Some (eb_index b)) (Some (eb_round b)) (eb_epoch_entropy b) (eb_parent_entropy b)
      (map Some (eb_keys b)).
  (** lines 135-144 *)
  Definition to_update (t : transition) : single_update E2 := mk_update (to_epoch_data (t_block t)) (map Some (t_bitmap t)).
  (** lines 146-160 *)
  Definition to_dummy_update (num_validators : Z) : single_update E2 :=
    mk_update (mk_data 0 (Some 0) (Some 0) (Some (repeat 0 ENTROPY_BYTES)) (Some (repeat 0 ENTROPY_BYTES))
                 (map (fun _ => Some gen2) (seq 0 (Z.to_nat num_validators))))
      (map (fun _ => Some true) (seq 0 (Z.to_nat num_validators))).
  (** lines 40-52; [epochs[..n - 1]] with n = 0 panics *)
  Definition prove_updates (num_validators : Z) (transitions : list transition) (max_transitions : nat) : result (list (single_update E2)) :=
    let epochs := map to_update transitions in
    let num_epochs := length epochs in
    if (num_epochs <? max_transitions)%nat then
      match num_epochs with
      | O => Panic
      | S k =>
        match nth_error epochs k with
        | Some last => Ok (firstn k epochs ++ map (fun _ => to_dummy_update num_validators) (seq 0 (max_transitions - num_epochs)) ++ [last])
        | None => Panic
        end
      end
    else Ok epochs.
  (** lines 63-68; [Signature::aggregate] is the sum.  max_transitions - num_epochs underflows if negative: a
      panic with overflow checks, otherwise a range of about 2^64 whose collection exceeds every capacity *)
  Definition prove_signature (transitions : list transition) (max_transitions : nat) : result E1 :=
    let asig := gsum (map t_signature transitions) in
    if (max_transitions <? length transitions)%nat then Panic
    else Ok (gsum (map (fun _ => gen1) (seq 0 (max_transitions - length transitions)) ++ [asig])).
  (** lines 22-76; [helper]: [generate_hash_helper] when the parameters have a helper key *)
  Definition prove (helper : option (list transition -> result H)) (num_validators : Z) (initial_epoch : epoch_block E2)
      (transitions : list transition) (max_transitions : nat) : result (validator_set_update E1 E2 H) :=
    rbind (prove_updates num_validators transitions max_transitions) (fun epochs =>
    rbind (match helper with Some f => rbind (f transitions) (fun h => Ok (Some h)) | None => Ok None end) (fun hash_helper =>
    rbind (prove_signature transitions max_transitions) (fun asig =>
    Ok (mk_vsu (to_epoch_data initial_epoch) num_validators epochs (Some asig) hash_helper)))).
End Prover.
Arguments transition : clear implicits.
