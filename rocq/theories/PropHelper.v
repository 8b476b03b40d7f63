(** C59: the helper proof of the two-proof mode.  [holds c x]: some assignment satisfies the constraints of [c] with
    output [x]; for the helper circuit the output is its list of public inputs. *)
From Verif Require Import Base Constants Group Instances Field Curve BitsModel EncodingModel EncodingSpec Blake2 HasherModel PointModel HashCurveModel
  Circuit CircuitFacts GadgetModel HashGadgetModel EpochCircuitModel ProverModel HelperModel HelperSpec HelperProofs.

(** the circuit states exactly that the messages in the first inputs expand to the digests in the others *)
Theorem C59_statement : forall shape inputs, holds (hash_to_bits_circuit shape) inputs <-> exists ms, helper_statement shape inputs ms.
Proof. exact circuit_holds. Qed.
Theorem C59_binding : forall shape inputs ms ms', helper_statement shape inputs ms -> helper_statement shape inputs ms' -> ms = ms'.
Proof. exact statement_binding. Qed.
Theorem C59_complete : forall ms : list bytes, Forall (fun m => is_bytes m = true) ms ->
  exists inputs a b, prover (hash_to_bits_circuit (map (fun m => map Some (msg_bits m)) ms)) = Val (inputs, true) /\
    pack r 252 (flat_map msg_bits ms) = Some a /\ (exists xs, Forall2 expansion ms xs /\ pack r 252 (flat_map msg_bits xs) = Some b) /\ map zr_val inputs = a ++ b.
Proof. exact circuit_complete. Qed.

Section Instance.
  Context (E1 E2 GT : grp) (e : E1 -> E2 -> GT) (gen1 : E1) (gen2 : E2).
  Context (of1 : apoint fq -> E1) (of2 : apoint fq2 -> E2) (to1 : E1 -> apoint fq) (to2 : E2 -> apoint fq2).
  Context (sqrt : fq -> option fq) (ped : bytes -> option fq) (compat pin debug : bool) (HP : Type).
  Context (coords_of : E2 -> coords) (pedersen : bytes -> result bytes).
  Implicit Types (ts : list (transition E1 E2)) (w : validator_set_update E1 E2 HP) (t : transition E1 E2).

  (** the instance the prover builds: the bits of each digest in the opposite order, and what it then proves *)
  Theorem C59_instance : forall ts shape, (forall m d, pedersen m = Ok d -> length d = 48%nat) -> helper_messages gen2 coords_of pedersen ts = Ok shape ->
    exists ds ms inputs a b xs, Forall2 (inner_digest gen2 coords_of pedersen) ts ds /\ Forall2 mirrored ds ms /\
      prover (hash_to_bits_circuit shape) = Val (inputs, true) /\ Forall2 expansion ms xs /\
      pack r 252 (flat_map msg_bits ms) = Some a /\ pack r 252 (flat_map msg_bits xs) = Some b /\ map zr_val inputs = a ++ b.
  Proof. exact (instance_complete gen2 coords_of pedersen). Qed.
  (** every failure on the way is a panic, never an error *)
  Theorem C59_panics_only : forall t, (exists o, helper_message gen2 coords_of pedersen t = Ok o) \/ helper_message gen2 coords_of pedersen t = Panic.
  Proof. exact (helper_message_never_errs gen2 coords_of pedersen). Qed.
  (** the number of messages is that of the transitions, whatever the number of epochs of the helper key *)
  Theorem C59_unpadded : forall ts shape, (forall m d, pedersen m = Ok d -> length d = 48%nat) -> helper_messages gen2 coords_of pedersen ts = Ok shape ->
    Forall (fun o => length o = 384%nat) shape /\ length shape = length ts.
  Proof. exact (messages_384 gen2 coords_of pedersen). Qed.

  (** The epoch circuit expands counter, extra data and digest (8 + 48 bytes), the helper circuit the digest alone:
      when the inputs of a true helper statement are those that the epoch circuit hands to the verifier of the helper
      proof, then every inner digest [d] of the run expands to the same 64 bytes as [d] behind eight further bytes.
      [w] is any assignment of the epoch circuit. *)
  Theorem C59_mismatch : forall w b s shape inputs,
    prover (enforce_epochs e gen1 gen2 of1 of2 to1 to2 sqrt ped compat pin debug w) = Val (b, s) ->
    Forall (fun o => length o = 384%nat) shape -> holds (hash_to_bits_circuit shape) inputs -> map zr_val inputs = checked_inputs b ->
    exists ds, length ds = length (vsu_epochs w) /\ b_crh b = flat_map msg_bits ds /\ Forall (fun d => length d = 48%nat) ds /\ Forall shifted_collision ds.
  Proof.
    intros w b s shape inputs R S H E. destruct (enforce_run e gen1 gen2 of1 of2 to1 to2 sqrt ped compat pin debug w b s R) as (items & L & F & C & X).
    unfold checked_inputs in E. rewrite C, X in E. exists (map snd items). split; [rewrite map_length; exact L|]. split; [rewrite C; apply items_crh_eq|].
    split; [|exact (items_collide items shape inputs F S H E)]. apply Forall_map. eapply Forall_impl; [|exact F]. intros i (_ & Li & _). exact Li.
  Qed.
  (** in particular for what the prover itself makes *)
  Theorem C59_prover_mismatch : forall w b s ts shape inputs s', (forall m d, pedersen m = Ok d -> length d = 48%nat) ->
    prover (enforce_epochs e gen1 gen2 of1 of2 to1 to2 sqrt ped compat pin debug w) = Val (b, s) ->
    helper_messages gen2 coords_of pedersen ts = Ok shape -> prover (hash_to_bits_circuit shape) = Val (inputs, s') ->
    map zr_val inputs = checked_inputs b ->
    exists ds, length ds = length (vsu_epochs w) /\ b_crh b = flat_map msg_bits ds /\ Forall (fun d => length d = 48%nat) ds /\ Forall shifted_collision ds.
  Proof.
    intros w b s ts shape inputs s' HL R M P E. destruct (messages_384 gen2 coords_of pedersen ts shape HL M) as [S _].
    destruct (instance_complete gen2 coords_of pedersen ts shape HL M) as (ds & ms & inputs' & a & c & xs & _ & _ & P' & _).
    rewrite P in P'. injection P' as <- ->. exact (C59_mismatch w b s shape inputs R S (prover_holds _ _ P) E).
  Qed.
End Instance.

Print Assumptions C59_statement.
Print Assumptions C59_binding.
Print Assumptions C59_complete.
Print Assumptions C59_instance.
Print Assumptions C59_panics_only.
Print Assumptions C59_unpadded.
Print Assumptions C59_mismatch.
Print Assumptions C59_prover_mismatch.
