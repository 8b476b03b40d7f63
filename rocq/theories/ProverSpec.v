(** Honest chains of epoch blocks, in terms of the native encodings and hashes. *)
From Verif Require Import Base Constants Group Field Curve BitsModel EncodingModel EncodingSpec HasherModel PointModel HashCurveModel HashCurveSpec
  CodecSpec GadgetSpec HashGadgetModel HashGadgetSpec EpochSpec ProverModel.

(** What the circuit's use of the pairing needs: additivity in the first argument when the second is the fixed point [Q], and the sign of [Q].
    The pairing of BLS12-377 has both on the whole curve when [Q] is the generator of G2; it is not additive in its second
    argument outside the subgroup, so full bilinearity is not asked for. *)
Definition linear_at {E1 E2 GT : grp} (e : E1 -> E2 -> GT) (Q : E2) : Prop :=
  (forall P S, e (ga P S) Q = ga (e P Q) (e S Q)) /\ (forall P, e P (gn Q) = gn (e P Q)).
Definition bilinear {E1 E2 GT : grp} (e : E1 -> E2 -> GT) : Prop :=
  (forall P Q S, e (ga P Q) S = ga (e P S) (e Q S)) /\ (forall P Q S, e P (ga Q S) = ga (e P Q) (e P S)).

Section Honest.
  Context {E1 E2 GT : grp} (e : E1 -> E2 -> GT) (gen1 : E1) (gen2 : E2).
  Context (of1 : apoint fq -> E1) (of2 : apoint fq2 -> E2) (to1 : E1 -> apoint fq) (to2 : E2 -> apoint fq2).
  Context (sqrt : fq -> option fq) (ped : bytes -> option fq) (compat : bool).
  (** The coordinates of a key in the native encodings. *)
  Definition coords_of (P : E2) : coords := g2_coords (to2 P).
  (** Keys whose coordinates are a point of the twist that stands for them. *)
  Definition good_key (P : E2) : Prop := on_twist (to2 P) = true /\ of2 (to2 P) = P.
  Definition good_signature (s : E1) : Prop := on_g1 (to1 s) = true /\ of1 (to1 s) = s.
  Definition good_entropy (o : option bytes) : Prop :=
    match o with None => True | Some l => is_bytes l = true /\ length l = 16%nat end.
  Definition good_block (n : nat) (b : epoch_block E2) : Prop :=
    wf_numbers b /\ good_entropy (eb_epoch_entropy b) /\ good_entropy (eb_parent_entropy b) /\
    length (eb_keys b) = n /\ eb_max_validators b <= Z.of_nat n /\ Forall good_key (eb_keys b).
  (** The native hash of a block to the curve. *)
  Definition block_hash (b : epoch_block E2) (H : E1) : Prop :=
    exists message extra c, encode_inner_to_bytes_cip22 coords_of gen2 b = Ok (message, extra) /\
      g1_attempt_cip22 compat (composite_hasher (native_ped ped)) E1 of1 G1_COFACTOR sqrt SIG_DOMAIN message extra = Ok (H, c).
  (** The block that [prove] pads with. *)
  Definition dummy_block (n : nat) : epoch_block E2 :=
    mk_block 0 0 (Some (repeat 0 16)) (Some (repeat 0 16)) 0 (Z.of_nat n) (repeat gen2 n).
  (** Dummies can follow the block: none of its validators has the padding key, and the dummy block has a hash. *)
  Definition padding_ok (n : nat) (before : epoch_block E2) : Prop :=
    ~ In gen2 (eb_keys before) /\ good_key gen2 /\ exists H, block_hash (dummy_block n) H.
  (** The signature of a transition verifies for the hash and the aggregated key. *)
  Definition verifies (t : transition E1 E2) (H : E1) (K : E2) : Prop := e (t_signature t) gen2 = e H K.

  (** [honest hash linked n b ts]: every transition is signed by enough of the validators of the block before;
      [hash]: what a block hashes to. *)
  Inductive honest (hash : epoch_block E2 -> E1 -> Prop) (linked : Prop) (n : nat) : epoch_block E2 -> list (transition E1 E2) -> Prop :=
  | honest_end b : honest hash linked n b []
  | honest_step b t ts signing H :
      good_block n (t_block t) -> eb_index (t_block t) = eb_index b + 1 ->
      (linked -> entropy_value (eb_parent_entropy (t_block t)) = entropy_value (eb_epoch_entropy b)) ->
      signers (eb_keys b) (t_bitmap t) signing -> ~ In gen2 signing -> sum signing <> gz ->
      positions false (t_bitmap t) <= eb_max_non_signers b -> positions false (t_bitmap t) < 256 ->
      hash (t_block t) H -> verifies t H (sum signing) ->
      honest hash linked n (t_block t) ts -> honest hash linked n b (t :: ts).
  (** The header that the circuit reads from a block. *)
  Definition entropy_number (o : option bytes) : fq := fq_of (bytes_number (entropy_value o)).
  Definition header_of (b : epoch_block E2) : header E2 :=
    mk_header (fq_of (eb_index b)) (fq_of (eb_round b)) (fq_of (eb_max_non_signers b))
      (entropy_number (eb_epoch_entropy b)) (entropy_number (eb_parent_entropy b))
      (map (fun P => (P, encode_coords (coords_of P))) (eb_keys b)).
  Definition set_max (m : Z) (b : epoch_block E2) : epoch_block E2 :=
    mk_block (eb_index b) (eb_round b) (eb_epoch_entropy b) (eb_parent_entropy b) m (eb_max_validators b) (eb_keys b).
  Definition set_maximum (m : Z) (b : epoch_block E2) : epoch_block E2 :=
    mk_block (eb_index b) (eb_round b) (eb_epoch_entropy b) (eb_parent_entropy b) (eb_max_non_signers b) m (eb_keys b).
  (** Hashing a block with a digest of free choice: any multiple of the cofactor. *)
  Definition any_hash (b : epoch_block E2) (H : E1) : Prop :=
    exists message extra inner Q, encode_inner_to_bytes_cip22 coords_of gen2 b = Ok (message, extra) /\ native_ped ped message = Ok inner /\
      g1_equation Q /\ H = smul G1_COFACTOR (of1 (Some Q)).
  (** Entropy is in use. *)
  Definition has_entropy (b : epoch_block E2) : Prop := bytes_number (entropy_value (eb_epoch_entropy b)) <> 0.
  Definition last_block (b : epoch_block E2) (ts : list (transition E1 E2)) : epoch_block E2 := last (map t_block ts) b.
End Honest.
