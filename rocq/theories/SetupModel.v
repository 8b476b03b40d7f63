(** Model of crates/epoch-snark/src/api/setup.rs and of the empty circuit instances it is run on:
    gadgets/epoch_data.rs lines 85-94, gadgets/single_update.rs lines 32-37, gadgets/epochs.rs lines 56-75
    (gadgets/hash_to_bits.rs lines 24-32 is [hash_to_bits_empty] of HelperModel.v).  The Groth16 parameter
    generation is a parameter. *)
From Verif Require Import Base Constants Group Circuit EpochCircuitModel HelperModel ProverModel.

(** [usize as u32] *)
Definition as_u32 (x : Z) : Z := x mod 2 ^ 32.

Section Empty.
  Context {S K P V : Type}.
  (** epoch_data.rs lines 85-94 *)
  Definition epoch_data_empty (num_validators : nat) (maximum_non_signers : Z) : epoch_data K :=
    mk_data (as_u32 maximum_non_signers) None None None None (repeat None num_validators).
  (** single_update.rs lines 32-37 *)
  Definition single_update_empty (num_validators : nat) (maximum_non_signers : Z) : single_update K :=
    mk_update (epoch_data_empty num_validators maximum_non_signers) (repeat None num_validators).
  (** epochs.rs lines 56-75; [default_proof]: [Proof::default()].  A helper is a proof with its verifying key. *)
  Definition validator_set_update_empty (default_proof : P) (num_validators num_epochs : nat) (maximum_non_signers : Z) (vk : option V)
      : validator_set_update S K (P * V) :=
    mk_vsu (epoch_data_empty num_validators maximum_non_signers) (as_u32 (Z.of_nat num_validators))
      (repeat (single_update_empty num_validators maximum_non_signers) num_epochs) None (option_map (fun k => (default_proof, k)) vk).
End Empty.

Section Setup.
  (** [key_e], [key_h]: the Groth16 parameters for the two circuits, [vk_of]: their field [vk]; [R]: random generators. *)
  Context {S K P V key_e key_h R : Type} (vk_of : key_h -> V) (default_proof : P).
  (** setup.rs lines 18-21 *)
  Record parameters := mk_parameters { p_epochs : key_e; p_hash_to_bits : option key_h }.
  (** lines 63-105: the parameters and the generator afterwards; [?] passes errors on *)
  Definition setup (num_validators num_epochs : nat) (maximum_non_signers : Z) (rng : R)
      (hash_to_bits_setup : list (list (option bool)) -> R -> synth (key_h * R))
      (validator_setup_fn : validator_set_update S K (P * V) -> R -> synth (key_e * R)) (hashes_in_bls12_377 : bool) : synth (parameters * R) :=
    let first :=
      if hashes_in_bls12_377 then
        match hash_to_bits_setup (hash_to_bits_empty num_epochs) rng with
        | Val (k, rng') => Val (Some (vk_of k), Some k, rng')
        | Fails er => Fails er
        | Panics => Panics
        end
      else Val (None, None, rng) in
    match first with
    | Val (vk, hash_to_bits, rng) =>
      match validator_setup_fn (validator_set_update_empty default_proof num_validators num_epochs maximum_non_signers vk) rng with
      | Val (epochs, rng') => Val (mk_parameters epochs hash_to_bits, rng')
      | Fails er => Fails er
      | Panics => Panics
      end
    | Fails er => Fails er
    | Panics => Panics
    end.
  (** lines 30-46: [trusted_setup] gives the library's generator for both *)
  Definition trusted_setup (generate_h : list (list (option bool)) -> R -> synth (key_h * R))
      (generate_e : validator_set_update S K (P * V) -> R -> synth (key_e * R))
      (num_validators num_epochs : nat) (maximum_non_signers : Z) (rng : R) (hashes_in_bls12_377 : bool) : synth (parameters * R) :=
    setup num_validators num_epochs maximum_non_signers rng generate_h generate_e hashes_in_bls12_377.
End Setup.
Arguments parameters : clear implicits.

(** prover.rs lines 54-61 and 110-117: the helper of a [prove] call with parameters [q]; the proof comes with the
    key of the parameters.  [create]: the messages of HelperModel.v followed by the Groth16 prover. *)
Definition helper_of {E1 E2 : grp} {P V key_e key_h} (vk_of : key_h -> V) (create : key_h -> list (transition E1 E2) -> result P)
    (q : parameters key_e key_h) : option (list (transition E1 E2) -> result (P * V)) :=
  option_map (fun k ts => rbind (create k ts) (fun proof => Ok (proof, vk_of k))) (p_hash_to_bits q).
