(** C17-C21: bit utilities, key and epoch encodings, public inputs. *)
From Verif Require Import Base Constants Field Curve BitsModel BitsProofs EncodingModel EncodingSpec EncodingProofs.

(** ** C17 *)
Theorem C17_bits_to_bytes : forall bits,
  exists out, bits_le_to_bytes_le bits = Ok out /\ bits_be_to_bytes_le (rev bits) = Ok out /\
    is_bytes out = true /\ length out = ((length bits + 7) / 8)%nat /\ bytes_number out = bits_number_le bits.
Proof.
  intros bits. destruct (bits_to_bytes_spec bits) as (o & H). exists o. rewrite bytes_number_eq, bits_number_le_eq. exact H.
Qed.
Theorem C17_bytes_to_bits : forall l n, is_bytes l = true ->
  bytes_le_to_bits_be l n = rev (bytes_le_to_bits_le l n) /\
  length (bytes_le_to_bits_le l n) = Nat.min n (8 * length l) /\
  bits_number_le (bytes_le_to_bits_le l n) = bytes_number l mod 2 ^ Z.of_nat n.
Proof. intros l n H. rewrite bytes_number_eq, bits_number_le_eq. exact (bytes_to_bits_spec l n H). Qed.
Theorem C17_bytes_bits_bytes : forall l, is_bytes l = true ->
  bits_le_to_bytes_le (bytes_le_to_bits_le l (8 * length l)) = Ok l /\
  bits_be_to_bytes_le (bytes_le_to_bits_be l (8 * length l)) = Ok l.
Proof. exact bytes_bits_bytes. Qed.
Theorem C17_bits_bytes_bits : forall bits out, bits_le_to_bytes_le bits = Ok out ->
  bytes_le_to_bits_le out (length bits) = bits /\
  bytes_le_to_bits_be out (length bits) = rev bits /\
  bytes_le_to_bits_le out (8 * length out) = bits ++ repeat false (8 * length out - length bits).
Proof. exact bits_bytes_bits. Qed.

(** ** C18 *)
Theorem C18_length : forall P, length (enc_key P) = 755%nat.
Proof. exact enc_key_length. Qed.
Theorem C18_injective : forall P Q, on_twist P = true -> on_twist Q = true -> enc_key P = enc_key Q -> P = Q.
Proof. exact enc_key_inj. Qed.
Theorem C18_layout : forall x y,
  bits_number_be (firstn 377 (enc_key (Some (x, y)))) = fqv (fst x) /\
  bits_number_be (firstn 377 (skipn 377 (enc_key (Some (x, y))))) = fqv (snd x) /\
  nth_error (enc_key (Some (x, y))) 754 = Some (is_over_half y).
Proof. exact enc_key_layout. Qed.
Theorem C18_last_bit_selects_y : forall P, on_twist P = true -> P <> g2_neg P ->
  firstn 754 (enc_key (g2_neg P)) = firstn 754 (enc_key P) /\ enc_key (g2_neg P) <> enc_key P.
Proof. exact enc_key_neg. Qed.

Theorem C18_key_layout : forall P, enc_key P = key_layout P.
Proof. exact key_layout_eq. Qed.

(** ** C19 *)
Theorem C19_first_epoch_injective : forall b b', wf_block b -> wf_block b' -> enc_first b = enc_first b' ->
  eb_index b = eb_index b' /\ eb_max_non_signers b = eb_max_non_signers b' /\
  entropy_value (eb_parent_entropy b) = entropy_value (eb_parent_entropy b') /\ padded_keys b = padded_keys b'.
Proof. exact enc_first_inj. Qed.
Theorem C19_last_epoch_injective : forall b b', wf_block b -> wf_block b' -> enc_last b = enc_last b' ->
  eb_index b = eb_index b' /\ eb_max_non_signers b = eb_max_non_signers b' /\
  entropy_value (eb_epoch_entropy b) = entropy_value (eb_epoch_entropy b') /\ padded_keys b = padded_keys b' /\
  g2_sum (eb_keys b) = g2_sum (eb_keys b').
Proof. exact enc_last_inj. Qed.
Theorem C19_signed_message_injective : forall b b', wf_block b -> wf_block b' -> enc_signed b = enc_signed b' ->
  eb_index b = eb_index b' /\ eb_round b = eb_round b' /\ eb_max_non_signers b = eb_max_non_signers b' /\
  entropy_value (eb_epoch_entropy b) = entropy_value (eb_epoch_entropy b') /\
  entropy_value (eb_parent_entropy b) = entropy_value (eb_parent_entropy b') /\ padded_keys b = padded_keys b'.
Proof. exact enc_signed_inj. Qed.
Theorem C19_plain_injective : forall b b', wf_block b -> wf_block b' -> enc_plain b = enc_plain b' ->
  eb_index b = eb_index b' /\ eb_max_non_signers b = eb_max_non_signers b' /\ eb_keys b = eb_keys b'.
Proof. exact enc_plain_inj. Qed.
Theorem C19_lengths : forall b, wf_block b ->
  (exists o, enc_first b = Ok o /\ Z.of_nat (length o) = byte_len (176 + 755 * Z.of_nat (length (padded_keys b)))) /\
  (exists o, enc_last b = Ok o /\ Z.of_nat (length o) = byte_len (931 + 755 * Z.of_nat (length (padded_keys b)))) /\
  (exists o, enc_plain b = Ok o /\ Z.of_nat (length o) = byte_len (48 + 755 * Z.of_nat (length (eb_keys b)))) /\
  (exists m e, enc_signed b = Ok (m, e) /\ Z.of_nat (length m) = byte_len (256 + 755 * Z.of_nat (length (padded_keys b))) /\
     length e = 7%nat).
Proof. exact enc_lengths. Qed.

(** bit by bit: every encoding is the one string of bytes for its layout *)
Theorem C19_layouts : forall b, wf_block b ->
  (exists o, enc_first b = Ok o /\ written (first_layout b) o) /\ (exists o, enc_last b = Ok o /\ written (last_layout b) o) /\
  (exists o, enc_plain b = Ok o /\ written (plain_layout b) o) /\
  (exists m x, enc_signed b = Ok (m, x) /\ written (signed_layout b) m /\ written (extra_layout b) x).
Proof. exact layouts. Qed.
Theorem C19_layout_determines_bytes : forall bits o o', written bits o -> written bits o' -> o = o'.
Proof. exact written_unique. Qed.

(** ** C20 *)
Theorem C20_absent_entropy_is_zero_entropy : forall b t,
  enc_first (set_entropies b None None) = enc_first (set_entropies b (Some (repeat 0 16)) (Some (repeat 0 16))) /\
  enc_last (set_entropies b None t) = enc_last (set_entropies b (Some (repeat 0 16)) t) /\
  enc_signed (set_entropies b None None) = enc_signed (set_entropies b (Some (repeat 0 16)) (Some (repeat 0 16))).
Proof. exact entropy_none_zero. Qed.
Theorem C20_padding_is_explicit_generators : forall b,
  enc_first (set_keys b (padded_keys b)) = enc_first b /\ enc_signed (set_keys b (padded_keys b)) = enc_signed b.
Proof. exact padding_same. Qed.
Theorem C20_last_epoch_distinguishes_padding : forall b, wf_block b ->
  (enc_last (set_keys b (padded_keys b)) = enc_last b <-> g2_sum (padded_keys b) = g2_sum (eb_keys b)).
Proof. exact padding_last. Qed.
Theorem C20_short_entropies_collide : forall b x y z, (length (x ++ y) <= 16)%nat -> (length (y ++ z) <= 16)%nat ->
  enc_signed (set_entropies b (Some (x ++ y)) (Some z)) = enc_signed (set_entropies b (Some x) (Some (y ++ z))).
Proof. exact short_entropy. Qed.

(** ** C21 *)
Theorem C21_public_inputs_value : forall blake2 f l d1 d2, (forall x, length (blake2 x) = 32%nat) ->
  digests_of blake2 f l = Some (d1, d2) ->
  let bits := bytes_le_to_bits_le d1 256 ++ bytes_le_to_bits_le d2 256 in
  public_inputs g2_coords g2_sum g2_generator blake2 f l =
    Ok (Some [bits_number_be (firstn 376 bits); bits_number_be (skipn 376 bits)]) /\
  0 <= bits_number_be (firstn 376 bits) < p /\ 0 <= bits_number_be (skipn 376 bits) < p.
Proof. exact public_inputs_value. Qed.
Theorem C21_public_inputs_injective : forall blake2 f l f' l' d1 d2 d1' d2',
  (forall x, length (blake2 x) = 32%nat /\ is_bytes (blake2 x) = true) ->
  digests_of blake2 f l = Some (d1, d2) -> digests_of blake2 f' l' = Some (d1', d2') ->
  public_inputs g2_coords g2_sum g2_generator blake2 f l = public_inputs g2_coords g2_sum g2_generator blake2 f' l' ->
  d1 = d1' /\ d2 = d2'.
Proof. exact public_inputs_inj. Qed.

Print Assumptions C17_bits_to_bytes.
Print Assumptions C17_bytes_to_bits.
Print Assumptions C17_bytes_bits_bytes.
Print Assumptions C17_bits_bytes_bits.
Print Assumptions C18_length.
Print Assumptions C18_injective.
Print Assumptions C18_layout.
Print Assumptions C18_key_layout.
Print Assumptions C18_last_bit_selects_y.
Print Assumptions C19_first_epoch_injective.
Print Assumptions C19_last_epoch_injective.
Print Assumptions C19_signed_message_injective.
Print Assumptions C19_plain_injective.
Print Assumptions C19_lengths.
Print Assumptions C19_layouts.
Print Assumptions C19_layout_determines_bytes.
Print Assumptions C20_absent_entropy_is_zero_entropy.
Print Assumptions C20_padding_is_explicit_generators.
Print Assumptions C20_last_epoch_distinguishes_padding.
Print Assumptions C20_short_entropies_collide.
Print Assumptions C21_public_inputs_value.
Print Assumptions C21_public_inputs_injective.
