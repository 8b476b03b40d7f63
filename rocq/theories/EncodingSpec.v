(** Vocabulary for the encoding properties, independent of the encoding functions. *)
From Verif Require Import Base Constants Field Curve EncodingModel.

(** Numbers denoted by bit and byte strings. *)
Definition bits_number_le (l : list bool) : Z := fold_right (fun (b : bool) n => (if b then 1 else 0) + 2 * n) 0 l.
Definition bits_number_be (l : list bool) : Z := fold_left (fun n (b : bool) => 2 * n + (if b then 1 else 0)) l 0.
Definition bytes_number (l : bytes) : Z := fold_right (fun b n => b + 256 * n) 0 l.

(** What an optional entropy stands for: 16 bytes, zero when absent. *)
Definition entropy_value (e : option bytes) : bytes :=
  match e with None => repeat 0 16 | Some l => firstn 16 l end.
Definition wf_entropy (e : option bytes) : Prop :=
  match e with None => True | Some l => is_bytes l = true /\ (16 <= length l)%nat end.

(** The Rust types: u16, u8, u32. *)
Definition wf_numbers {K} (b : epoch_block K) : Prop :=
  0 <= eb_index b < 2 ^ 16 /\ 0 <= eb_round b < 2 ^ 8 /\ 0 <= eb_max_non_signers b < 2 ^ 32.
Definition wf_block (b : epoch_block g2_point) : Prop :=
  wf_numbers b /\ wf_entropy (eb_epoch_entropy b) /\ wf_entropy (eb_parent_entropy b) /\
  forallb on_twist (eb_keys b) = true.

(** The validator list with generator keys appended up to the maximum. *)
Definition padded_keys (b : epoch_block g2_point) : list g2_point :=
  eb_keys b ++ repeat g2_generator (Z.to_nat (eb_max_validators b) - length (eb_keys b)).
Definition set_keys {K} (b : epoch_block K) (ks : list K) : epoch_block K :=
  mk_block (eb_index b) (eb_round b) (eb_epoch_entropy b) (eb_parent_entropy b) (eb_max_non_signers b)
           (eb_max_validators b) ks.
Definition set_entropies {K} (b : epoch_block K) (e pe : option bytes) : epoch_block K :=
  mk_block (eb_index b) (eb_round b) e pe (eb_max_non_signers b) (eb_max_validators b) (eb_keys b).

(** The encoders at the real keys. *)
Definition enc_key : g2_point -> list bool := encode_public_key g2_coords.
Definition enc_plain : epoch_block g2_point -> result bytes := encode_to_bytes g2_coords.
Definition enc_first : epoch_block g2_point -> result bytes := encode_first_epoch_to_bytes_cip22 g2_coords g2_generator.
Definition enc_last : epoch_block g2_point -> result bytes :=
  encode_last_epoch_to_bytes_with_aggregated_pk_cip22 g2_coords g2_sum g2_generator.
Definition enc_signed : epoch_block g2_point -> result (bytes * bytes) := encode_inner_to_bytes_cip22 g2_coords g2_generator.

(** Byte length of a bit string of the given length. *)
Definition byte_len (bits : Z) : Z := (bits + 7) / 8.

(** ** The layout of the encodings
    [n] bits of a number, least or most significant first. *)
Definition bits_up (n : nat) (v : Z) : list bool := map (fun i => Z.testbit v (Z.of_nat i)) (seq 0 n).
Definition bits_down (n : nat) (v : Z) : list bool := rev (bits_up n v).
(** A key: the two coefficients of x, then whether y is the larger of y and -y; the point at infinity has x = 0, y = 1. *)
Definition y_larger (y : fq2) : bool := if fqv (snd y) =? 0 then p <? 2 * fqv (fst y) else p <? 2 * fqv (snd y).
Definition key_layout (P : g2_point) : list bool :=
  match P with
  | Some (x, y) => bits_down 377 (fqv (fst x)) ++ bits_down 377 (fqv (snd x)) ++ [y_larger y]
  | None => bits_down 377 0 ++ bits_down 377 0 ++ [false]
  end.
Definition entropy_layout (e : option bytes) : list bool := bits_up 128 (bytes_number (entropy_value e)).
Definition first_layout (b : epoch_block g2_point) : list bool :=
  bits_up 16 (eb_index b) ++ entropy_layout (eb_parent_entropy b) ++ bits_up 32 (eb_max_non_signers b) ++ flat_map key_layout (padded_keys b).
Definition last_layout (b : epoch_block g2_point) : list bool :=
  bits_up 16 (eb_index b) ++ entropy_layout (eb_epoch_entropy b) ++ bits_up 32 (eb_max_non_signers b) ++ flat_map key_layout (padded_keys b) ++
  key_layout (g2_sum (eb_keys b)).
Definition plain_layout (b : epoch_block g2_point) : list bool :=
  bits_up 16 (eb_index b) ++ bits_up 32 (eb_max_non_signers b) ++ flat_map key_layout (eb_keys b).
Definition signed_layout (b : epoch_block g2_point) : list bool :=
  entropy_layout (eb_epoch_entropy b) ++ entropy_layout (eb_parent_entropy b) ++ flat_map key_layout (padded_keys b).
Definition extra_layout (b : epoch_block g2_point) : list bool :=
  bits_up 16 (eb_index b) ++ bits_up 8 (eb_round b) ++ bits_up 32 (eb_max_non_signers b).
(** The bytes of a bit string: the whole string as one number, its first bit the most significant, in little-endian
    bytes. *)
Definition written (bits : list bool) (out : bytes) : Prop :=
  is_bytes out = true /\ length out = ((length bits + 7) / 8)%nat /\ bytes_number out = bits_number_be bits.
