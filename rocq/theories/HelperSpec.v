(** What the helper circuit should state, and what it would take for the epoch circuit's check of it to pass. *)
From Verif Require Import Base Group Instances BitsModel EncodingModel EncodingSpec HasherModel Circuit ProverModel.

(** The bits of a byte string, least significant bit of every byte first. *)
Definition msg_bits (l : bytes) : list bool := flat_map (fun b => map (fun i => Z.testbit b (Z.of_nat i)) (seq 0 8)) l.
(** The bits [l] as numbers of [n] bits, the first bit of a group the most significant, in the low bits of the inputs. *)
Definition carries (n : nat) (l : list bool) (inputs : list zr) : Prop :=
  Forall2 (fun chunk x => zr_val x mod 2 ^ Z.of_nat (length chunk) = bits_number_be chunk) (chunks n l) inputs.
(** BLAKE2Xs in the signature domain. *)
Definition expansion (m x : bytes) : Prop := direct_xof SIG_DOMAIN m 64 = Ok x.
(** [d] and [d] behind eight bytes expand to the same bytes. *)
Definition shifted_collision (d : bytes) : Prop :=
  exists pre x, length pre = 8%nat /\ is_bytes pre = true /\ expansion d x /\ expansion (pre ++ d) x.
(** The inputs state: the messages [ms], as long as the circuit has bits for, expand to the digests listed next. *)
Definition helper_statement (shape : list (list (option bool))) (inputs : list zr) (ms : list bytes) : Prop :=
  Forall2 (fun o m => length o = (8 * length m)%nat /\ is_bytes m = true) shape ms /\
  exists xs a b, Forall2 expansion ms xs /\ inputs = a ++ b /\
    carries 252 (flat_map msg_bits ms) a /\ carries 252 (flat_map msg_bits xs) b.

(** The bits of [d] in the opposite order. *)
Definition mirrored (d m : bytes) : Prop := is_bytes m = true /\ msg_bits m = rev (msg_bits d).
(** The Pedersen digest of the padded encoding of the block of a transition. *)
Definition inner_digest {E1 E2 : grp} (gen2 : E2) (coords_of : E2 -> coords) (pedersen : bytes -> result bytes) (t : transition E1 E2) (d : bytes) : Prop :=
  exists encoding extra, encode_inner_to_bytes_cip22 coords_of gen2 (t_block t) = Ok (encoding, extra) /\ pedersen encoding = Ok d.
