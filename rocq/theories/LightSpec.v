(** Vocabulary for C62: what the C entry point [verify] certifies. *)
From Verif Require Import Base Constants Group Field Curve BitsModel EncodingModel EncodingSpec HasherModel FfiModel FfiSpec EpochSpec.

(** An [EpochBlockFFI] as C can pass it: numbers of their types, readable memory. *)
Definition c_block (x : epoch_block_ffi) : Prop :=
  0 <= ef_index x < 2 ^ 16 /\ 0 <= ef_round x < 2 ^ 8 /\ 0 <= ef_max_non_signers x < 2 ^ 32 /\
  entropy_ptr (ef_epoch_entropy x) /\ entropy_ptr (ef_parent_entropy x) /\
  is_bytes (ef_pubkeys x) = true /\ 0 <= ef_pubkeys_num x /\ (ef_pubkeys_num x * 96) mod 2 ^ 64 <= Z.of_nat (length (ef_pubkeys x)).

(** Soundness of the proof system for one verifying key: accepted public inputs satisfy the relation. *)
Definition sound_for {proof} (accepts : proof -> list Z -> Prop) (relation : list fq -> Prop) : Prop :=
  forall q inputs, accepts q inputs -> exists xs, inputs = map fqv xs /\ relation xs.

(** Two different messages with the same digest: the bits in the circuit and the native encoding. *)
Definition collides (bits : list bool) (native : result bytes) : Prop :=
  exists m m', bits_be_to_bytes_le bits = Ok m /\ native = Ok m' /\ m <> m' /\ blake2_out m = blake2_out m'.

(** [certified n h0 l pairs s]: headers [l] follow [h0], each signed by a quorum of the committee before it,
    with indices counting up as integers; [s] is an aggregate signature on exactly these headers. *)
Section Certified.
  Context {E1 E2 GT : grp} (e : E1 -> E2 -> GT) (gen2 : E2) (opens : E2 -> list bool -> Prop) (hashes : header E2 -> E1 -> Prop).
  Definition certified (n : nat) (h0 : header E2) (l : list (header E2)) (pairs : list (E1 * E2)) (s : E1) : Prop :=
    Forall (well_formed opens n) (h0 :: l) /\
    (forall k h, nth_error l k = Some h -> fqv (h_index h) = fqv (h_index h0) + Z.of_nat (S k)) /\
    (h_entropy h0 <> q0 -> linked_from (h_entropy h0) l) /\
    covered gen2 hashes (committee_of h0) l pairs /\ signed e gen2 s pairs.
End Certified.
