(** Vocabulary for C79: a light client that calls [verify] again and again, the last block of one call being the first of the next. *)
From Verif Require Import Base Constants Group Field Curve BitsModel EncodingModel EncodingSpec HasherModel PointModel HashGadgetModel FfiModel FfiSpec CodecSpec EpochSpec LightSpec
  CurveGroups CurvesSpec SecretSpec KnowledgeSpec.

(** The calls in order, each a proof and the block it leads to; [accepts] is one call that returned true. *)
Fixpoint session (accepts : bytes -> epoch_block_ffi -> epoch_block_ffi -> Prop) (first : epoch_block_ffi) (calls : list (bytes * epoch_block_ffi)) : Prop :=
  match calls with
  | [] => True
  | (pf, last) :: calls => accepts pf first last /\ session accepts last calls
  end.
(** The block the client ends with. *)
Definition latest (first : epoch_block_ffi) (calls : list (bytes * epoch_block_ffi)) : epoch_block_ffi := List.last (map snd calls) first.

(** What one call leaves behind: the headers and the point that its assignment contains, and how many of the epochs of the circuit are dummies. *)
Record step := mk_step { s_first : epoch_block g2_point; s_last : epoch_block g2_point; s_start : header g2_curve; s_between : list (header g2_curve);
  s_end : header g2_curve; s_point : g1_curve; s_dummies : nat; s_assignment : list cell }.
Definition s_headers (x : step) : list (header g2_curve) := s_between x ++ [s_end x].
(** The two edge messages of a call, each a collision of its digest if the headers do not show the blocks. *)
Definition step_collides (x : step) : Prop :=
  collides (first_bits (s_start x)) (enc_first (s_first x)) \/
  exists agg, sums_to g2_to (s_end x) agg /\ collides (closing_bits (s_end x) ++ agg) (enc_last (s_last x)).
Definition step_in_assignment (k : nat) (x : step) : Prop :=
  (length (s_headers x) + s_dummies x = k)%nat /\
  Forall (contains_header g2_of (s_assignment x)) (s_start x :: s_headers x) /\ contains_g1 g1_of (s_assignment x) (s_point x).
Definition step_shows (c : Z) (hashes : header g2_curve -> g1_curve -> Prop) (x : step) : Prop :=
  shows_first g2_of (s_start x) (s_first x) /\ shows_last g2_of (s_end x) (s_last x) /\
  eb_index (s_last x) = (eb_index (s_first x) + Z.of_nat (length (s_headers x))) mod 2 ^ 16 /\
  (Forall keys_in_g2 (s_between x) -> exists ps, signed_chain hashes (committee_of (s_start x)) (s_headers x) ps /\
    smul c (ga (s_point x) (gn (smul (Z.of_nat (s_dummies x)) g1_gen))) = aggregate_of ps).

(** Two headers stand for the same committee: numbers modulo their widths, and the keys up to the sign of keys with an undetermined ordinate. *)
Definition same_committee (h h' : header g2_curve) : Prop :=
  fqv (h_index h) mod 2 ^ 16 = fqv (h_index h') mod 2 ^ 16 /\ fqv (h_max h) mod 2 ^ 32 = fqv (h_max h') mod 2 ^ 32 /\
  Forall2 (fun P P' => P = P' \/ (P = gn P' /\ exists K, (P = g2_of K \/ P' = g2_of K) /\ undetermined (snd (g2_coords (g2_neg K))))) (map fst (h_keys h)) (map fst (h_keys h')).
(** Every step starts where the one before it ended. *)
Fixpoint relayed (l : list step) : Prop :=
  match l with
  | x :: ((y :: _) as l') => s_last x = s_first y /\ same_committee (s_end x) (s_start y) /\ relayed l'
  | _ => True
  end.

(** [x] is about the call with proof [pf] from [a] to [b]: the blocks are those read, the assignment is extracted from the proof. *)
Section From.
  Context {proof : Type} (read : epoch_block_ffi -> result (epoch_block g2_point)) (pd : bytes -> result proof) (extract : proof -> list Z -> list cell).
  Definition from_call (pf : bytes) (a b : epoch_block_ffi) (x : step) : Prop :=
    read a = Ok (s_first x) /\ read b = Ok (s_last x) /\
    exists pr inputs, pd pf = Ok pr /\ public_inputs g2_coords g2_sum g2_generator blake2_out (s_first x) (s_last x) = Ok (Some inputs) /\ s_assignment x = extract pr inputs.
  Fixpoint from_session (first : epoch_block_ffi) (calls : list (bytes * epoch_block_ffi)) (l : list step) : Prop :=
    match calls, l with
    | [], [] => True
    | (pf, last) :: calls, x :: l => from_call pf first last x /\ from_session last calls l
    | _, _ => False
    end.
End From.

(** Blocks that agree on everything but the round and one of the entropies. *)
Definition differ_unseen_first (a a' : epoch_block_ffi) : Prop :=
  ef_index a = ef_index a' /\ ef_max_non_signers a = ef_max_non_signers a' /\ ef_max_validators a = ef_max_validators a' /\ ef_parent_entropy a = ef_parent_entropy a' /\
  ef_pubkeys a = ef_pubkeys a' /\ ef_pubkeys_num a = ef_pubkeys_num a'.
Definition differ_unseen_last (b b' : epoch_block_ffi) : Prop :=
  ef_index b = ef_index b' /\ ef_max_non_signers b = ef_max_non_signers b' /\ ef_max_validators b = ef_max_validators b' /\ ef_epoch_entropy b = ef_epoch_entropy b' /\
  ef_pubkeys b = ef_pubkeys b' /\ ef_pubkeys_num b = ef_pubkeys_num b'.
