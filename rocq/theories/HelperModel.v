(** Model of the helper proof for the expansion of the inner hashes: crates/epoch-snark/src/gadgets/hash_to_bits.rs
    and crates/epoch-snark/src/api/prover.rs lines 84-118.  The circuit is over the scalar field of
    BLS12-377.  Groth16 itself is not modelled. *)
From Verif Require Import Base Constants Group Instances Field BitsModel EncodingModel Blake2 HasherModel Circuit GadgetModel HashGadgetModel
  EpochCircuitModel ProverModel.
Local Open Scope circ_scope.

(** ark-r1cs-std over F_r: [AllocatedBit::new_variable], (1 - a) * a = 0 *)
Definition bfr (b : bool) : zr := zr_mk (if b then 1 else 0).
Definition new_bool_fr (h : synth bool) : circ bool :=
  Witness (smap bfr h) (fun v => Enforce (zr_val (zr_mk ((1 - zr_val v) * zr_val v)) =? 0) (Ret (zr_val v =? 1))).
(** gadgets/mod.rs lines 116-124 *)
Definition constrain_bool_fr (input : list (option bool)) : circ (list bool) := cmap (fun b => new_bool_fr (get b)) input.
(** MODULUS_BITS of F_r; [to_bits_be] gives the bits of the canonical representative *)
Definition FR_BITS : nat := 253.
Definition fr_bits_be (x : zr) : list bool := rev (map (fun i => Z.testbit (zr_val x) (Z.of_nat i)) (seq 0 FR_BITS)).
(** pack.rs lines 14-51 over F_r *)
Definition pack_chunk_fr (chunk : list bool) : circ zr :=
  fp <- witness (match from_repr r (from_bits_be chunk) with Some v => Val (zr_mk v) | None => Fails AssignmentMissing end) ;;
  if (length chunk <=? FR_BITS)%nat then
    enforce_bits (skipn (FR_BITS - length chunk) (fr_bits_be fp)) chunk ;;; Ret fp
  else panics.
Definition multipack_fr (bits : list bool) (element_size : nat) : circ (list zr) :=
  match element_size with
  | O => panics
  | _ => cmap pack_chunk_fr (chunks element_size bits)
  end.

(** hash_to_bits.rs lines 24-32; 384 is MODULUS_BITS of the scalar field of BW6-761 rounded up to bytes *)
Definition hash_to_bits_empty (num_epochs : nat) : list (list (option bool)) := repeat (repeat None 384) num_epochs.
(** hash_to_bits.rs lines 34-69; the output is the list of public inputs *)
Definition hash_to_bits_circuit (message_bits : list (list (option bool))) : circ (list zr) :=
  parts <- cmap (fun m => bits <- constrain_bool_fr m ;; hash <- HashGadgetModel.hash_to_bits bits 512 SIG_DOMAIN true ;; Ret (bits, hash)) message_bits ;;
  crh <- multipack_fr (concat (map fst parts)) BLS_CAPACITY ;;
  xof <- multipack_fr (concat (map snd parts)) BLS_CAPACITY ;;
  Ret (crh ++ xof).

Section Helper.
  Context {E1 E2 : grp} (gen2 : E2) (coords_of : E2 -> coords) (pedersen : bytes -> result bytes).
  (** [Result::unwrap] *)
  Definition unwrap {A} (x : result A) : result A := match x with Ok v => Ok v | _ => Panic end.
  (** prover.rs lines 93-106 *)
  Definition helper_message (t : transition E1 E2) : result (list (option bool)) :=
    rbind (unwrap (encode_inner_to_bytes_cip22 coords_of gen2 (t_block t))) (fun '(epoch_bytes, _) =>
    rbind (unwrap (crh (composite_hasher pedersen) [] epoch_bytes 0)) (fun crh_bytes =>
    Ok (map Some (bytes_le_to_bits_be crh_bytes 384)))).
  (** lines 85-107: the circuit instance that is proved *)
  Definition helper_messages (transitions : list (transition E1 E2)) : result (list (list (option bool))) :=
    mapM helper_message transitions.
End Helper.
(** What the epoch circuit hands to the verifier of the helper proof (epoch_bits.rs lines 117-129): field elements
    given by their bits, least significant first. *)
Definition checked_inputs (b : epoch_bits) : list Z :=
  map bits_le_val (le_chunks (b_crh b) BLS_CAPACITY ++ le_chunks (b_xof b) BLS_CAPACITY).
