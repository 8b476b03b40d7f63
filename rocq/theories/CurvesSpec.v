(** Vocabulary for C67: epoch blocks whose keys are elements of the group of the twist, and what is passed to C. *)
From Verif Require Import Base Constants Group Field Curve EncodingModel EncodingSpec Circuit EpochCircuitModel FfiModel ShapeSpec CurveGroups.

(** The block with the coordinates of its keys. *)
Definition raw (b : epoch_block g2_curve) : epoch_block g2_point :=
  mk_block (eb_index b) (eb_round b) (eb_epoch_entropy b) (eb_parent_entropy b) (eb_max_non_signers b) (eb_max_validators b) (map g2_to (eb_keys b)).
(** The [EpochBlockFFI] of a block: its keys serialized one after the other. *)
Definition as_ffi (b : epoch_block g2_point) : epoch_block_ffi :=
  EpochBlockFFI (eb_index b) (eb_round b) (eb_epoch_entropy b) (eb_parent_entropy b) (serialize_pubkeys (eb_keys b))
    (Z.of_nat (length (eb_keys b))) (eb_max_non_signers b) (eb_max_validators b).

(** Completeness of the proof system: a key made for a constraint system proves every instance with these constraints
    whose assignment satisfies them.  [generate], [create]: key generation and proving; [vk_of]: the verifying key;
    [decode], [check]: the proof read from bytes and verified. *)
Definition complete_groth {I R key vkey proof} (circuit : I -> circ (list fq)) (generate : I -> R -> synth (key * R)) (vk_of : key -> vkey)
    (create : key -> I -> result bytes) (decode : bytes -> result proof) (check : vkey -> proof -> list Z -> result bool) : Prop :=
  forall w0 r0 k r1 w inputs, generate w0 r0 = Val (k, r1) -> same (circuit w0) (circuit w) -> prover (circuit w) = Val (inputs, true) ->
    exists bytes q, create k w = Ok bytes /\ decode bytes = Ok q /\ check (vk_of k) q (map fqv inputs) = Ok true.
