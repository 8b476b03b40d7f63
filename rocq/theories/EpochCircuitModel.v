(** Model of the epoch circuit: crates/epoch-snark/src/gadgets mod.rs, epoch_data.rs, single_update.rs,
    epochs.rs, epoch_bits.rs.  In setup mode there are no witness values and the program of constraints is the same
    (C63).  Logging is not modelled. *)
From Verif Require Import Base Constants Group Field Curve BitsModel EncodingModel Blake2 HasherModel PointModel HashCurveModel Circuit GadgetModel
  HashGadgetModel.
Local Open Scope circ_scope.

(** epoch_data.rs lines 26-39 *)
Record epoch_data (K : Type) := mk_data {
  ed_max_non_signers : Z;
  ed_index : option Z;
  ed_round : option Z;
  ed_epoch_entropy : option bytes;
  ed_parent_entropy : option bytes;
  ed_keys : list (option K)
}.
Arguments mk_data {K}. Arguments ed_max_non_signers {K}. Arguments ed_index {K}. Arguments ed_round {K}.
Arguments ed_epoch_entropy {K}. Arguments ed_parent_entropy {K}. Arguments ed_keys {K}.
(** single_update.rs lines 23-28 *)
Record single_update (K : Type) := mk_update { su_data : epoch_data K; su_bitmap : list (option bool) }.
Arguments mk_update {K}. Arguments su_data {K}. Arguments su_bitmap {K}.
(** epochs.rs lines 30-43; [H] is the type of helper proofs with their keys *)
Record validator_set_update (S K H : Type) := mk_vsu {
  vsu_initial : epoch_data K;
  vsu_num_validators : Z;
  vsu_epochs : list (single_update K);
  vsu_signature : option S;
  vsu_helper : option H
}.
Arguments mk_vsu {S K H}. Arguments vsu_initial {S K H}. Arguments vsu_num_validators {S K H}.
Arguments vsu_epochs {S K H}. Arguments vsu_signature {S K H}. Arguments vsu_helper {S K H}.

(** [Option::get]: None is AssignmentMissing *)
Definition get {A} (o : option A) : synth A := match o with Some a => Val a | None => Fails AssignmentMissing end.

(** gadgets/mod.rs lines 86-91; [Fr::from(BigInteger)] panics on values not below the modulus *)
Definition bytes_to_fr (l : bytes) : circ fq :=
  witness (match from_repr p (from_bits_be (bytes_le_to_bits_be l 384)) with Some v => Val (fq_of v) | None => Panics end).
(** lines 94-99; every length in use is below 377 *)
Definition fr_to_bits (input : fq) (length : nat) : list bool := firstn length (to_bits_le input).
(** lines 103-112, on the coordinates X and Y of the variable *)
Definition g2_to_bits (X Y : fq2) : circ (list bool) :=
  y_bit <- g2_y_to_bit Y ;;
  Ret (to_bits_be (fst X) ++ to_bits_be (snd X) ++ [y_bit]).
(** lines 116-124 *)
Definition constrain_bool (input : list (option bool)) : circ (list bool) := cmap (fun b => new_bool (get b)) input.
(** ark-r1cs-std [conditional_enforce_equal]: (a - b) * cond = 0 *)
Definition conditional_enforce_equal (a b : fq) (cond : bool) : circ unit := enforce (qeqb (qmul (qsub a b) (bfq cond)) q0).
(** [UInt8::new_witness] *)
Definition new_u8 (h : synth Z) : circ (list bool) :=
  cmap (fun i => new_bool (smap (fun c => Z.testbit (c mod 256) (Z.of_nat i)) h)) (seq 0 8).

(** epoch_bits.rs lines 27-36 *)
Record epoch_bits := mk_bits { b_first : list bool; b_last : list bool; b_crh : list bool; b_xof : list bool }.

Section Epochs.
  (** [E1], [E2]: the two curve groups, [e]: the pairing; [of1], [of2]: points as group elements,
      [to1], [to2]: [into_affine]; [gen1], [gen2]: the generators; [ped], [sqrt], [compat], [pin]: see
      HashGadgetModel; [debug]: debug assertions (bitmap.rs). *)
  Context {E1 E2 GT : grp} (e : E1 -> E2 -> GT) (gen1 : E1) (gen2 : E2).
  Context (of1 : apoint fq -> E1) (of2 : apoint fq2 -> E2) (to1 : E1 -> apoint fq) (to2 : E2 -> apoint fq2).
  Context (sqrt : fq -> option fq) (ped : bytes -> option fq) (compat pin debug : bool).
  (** helper proofs and the value of the verification Boolean on the packed CRH and XOF bits *)
  Context {H : Type} (helper_verify : H -> list (list bool) -> bool).

  (** ** epoch_data.rs *)
  Record data_vars := mk_vars {
    v_bits : list bool; v_extra : list bool; v_first : list bool; v_last : list bool;
    v_index : fq; v_entropy : fq; v_parent : fq; v_max : fq; v_keys : list E2
  }.
  (** lines 189-207: one public key *)
  Definition key_var (k : option E2) : circ (E2 * list bool) :=
    t <- alloc_g2 pin (smap to2 (get k)) ;;
    let '(X, Y, _) := t in
    bits <- g2_to_bits X Y ;;
    Ret (of2 (affine2 t), bits).
  Definition ENTROPY_ZERO : bytes := repeat 0 ENTROPY_BYTES.
  (** lines 143-221 *)
  Definition to_bits (d : epoch_data E2) : circ data_vars :=
    index <- witness (smap fq_of (get (ed_index d))) ;;
    let index_bits := fr_to_bits index 16 in
    round <- witness (smap fq_of (get (ed_round d))) ;;
    let round_bits := fr_to_bits round 8 in
    maximum <- witness (Val (fq_of (ed_max_non_signers d))) ;;
    let maximum_bits := fr_to_bits maximum 32 in
    entropy <- bytes_to_fr (match ed_epoch_entropy d with Some v => v | None => ENTROPY_ZERO end) ;;
    let entropy_bits := fr_to_bits entropy (8 * ENTROPY_BYTES) in
    parent <- bytes_to_fr (match ed_parent_entropy d with Some v => v | None => ENTROPY_ZERO end) ;;
    let parent_bits := fr_to_bits parent (8 * ENTROPY_BYTES) in
    keys <- cmap key_var (ed_keys d) ;;
    let key_bits := concat (map snd keys) in
    Ret (mk_vars (entropy_bits ++ parent_bits ++ key_bits) (index_bits ++ round_bits ++ maximum_bits)
          (index_bits ++ parent_bits ++ maximum_bits ++ key_bits) (index_bits ++ entropy_bits ++ maximum_bits ++ key_bits)
          index entropy parent maximum (map fst keys)).
  (** lines 225-233 *)
  Definition enforce_next_epoch (previous_index index : fq) : circ unit :=
    z <- is_eq_zero (Var index) ;;
    conditional_enforce_equal index (qadd previous_index q1) (negb z).
  (** lines 238-301: bits packed into bytes *)
  Definition pack_u8 (bits : list bool) : list (list bool) :=
    map (fun c => c ++ repeat false (8 - length c)) (chunks 8 (rev bits)).
  Definition find_counter (message extra : bytes) : synth Z :=
    match g1_attempt_cip22 compat (composite_hasher (native_ped ped)) E1 of1 G1_COFACTOR sqrt SIG_DOMAIN message extra with
    | Ok (_, c) => Val c
    | Err _ => Fails Unsatisfiable
    | _ => Panics
    end.
  Definition hash_bits_to_g1 (bits extra : list bool) (constrain : bool) : circ (E1 * list bool * list bool) :=
    let message := pack_u8 bits in
    let extra := pack_u8 extra in
    counter <- new_u8 (find_counter (map bits_le_val message) (map bits_le_val extra)) ;;
    enforce_hash_to_group of1 sqrt ped compat pin counter message extra constrain.
  (** lines 102-139 *)
  Definition constrain_data (d : epoch_data E2) (previous_index : fq) (constrain : bool)
      : circ (data_vars * (E1 * list bool * list bool)) :=
    v <- to_bits d ;;
    enforce_next_epoch previous_index (v_index v) ;;;
    h <- hash_bits_to_g1 (v_bits v) (v_extra v) constrain ;;
    Ret (v, h).

  (** ** single_update.rs lines 79-136 *)
  Record carried := mk_carried { c_keys : list E2; c_index : fq; c_entropy : fq; c_max : fq }.
  Definition constrain_update (u : single_update E2) (c : carried) (entropy_bit : bool) (num_validators : Z) (constrain : bool)
      : circ (data_vars * (E1 * list bool * list bool) * E2) :=
    if negb (num_validators =? Z.of_nat (length (ed_keys (su_data u)))) then panics else
    d <- constrain_data (su_data u) (c_index c) constrain ;;
    let '(v, (message_hash, crh, xof)) := d in
    z <- is_eq_zero (Var (v_index v)) ;;
    conditional_enforce_equal (c_entropy c) (v_parent v) (negb z && entropy_bit) ;;;
    bitmap <- constrain_bool (su_bitmap u) ;;
    '(message_hash, apk) <- enforce_bitmap debug (c_keys c) bitmap message_hash (c_max c) gen2 ;;
    Ret (v, (message_hash, crh, xof), apk).

  (** ** epochs.rs *)
  (** lines 264-279: the last epoch.  [mul_by_inverse] enforces that the denominator has an inverse *)
  Definition last_bits (v : data_vars) (keys : list E2) (index_bit : bool) : circ (list bool) :=
    apk <- enforce_aggregated_all_pubkeys keys ;;
    enforce (match to2 apk with Some _ => true | None => false end) ;;;
    let '(x, y) := match to2 apk with Some c => c | None => (q2_0, q2_0) end in
    b <- g2_to_bits x y ;;
    enforce_equal index_bit true ;;;
    Ret (v_last v ++ b).
  (** lines 200-284: (last epoch bits, CRH bits, XOF bits, prepared keys, prepared hashes) *)
  Definition loop_output : Type := (list bool * list bool * list bool * list E2 * list E1)%type.
  Fixpoint epochs_loop (epochs : list (single_update E2)) (c : carried) (entropy_bit : bool) (num_validators : Z) (constrain : bool)
      : circ loop_output :=
    match epochs with
    | [] => Ret ([], [], [], [], [])
    | u :: rest =>
      r <- constrain_update u c entropy_bit num_validators constrain ;;
      let '(v, (message_hash, crh, xof), aggregate) := r in
      z <- is_eq_zero (Var (v_index v)) ;;
      let index_bit := negb z in
      let c' := mk_carried (map (fun '(new, old) => if index_bit then new else old) (combine (v_keys v) (c_keys c)))
                  (if index_bit then v_index v else c_index c) (if index_bit then v_entropy v else c_entropy c)
                  (if index_bit then v_max v else c_max c) in
      apk <- prepare_g2 (if index_bit then aggregate else gen2) ;;
      h <- prepare_g1 (if index_bit then message_hash else gen1) ;;
      last <- (match rest with [] => last_bits v (c_keys c') index_bit | _ => Ret [] end) ;;
      out <- epochs_loop rest c' entropy_bit num_validators constrain ;;
      let '(last', crhs, xofs, apks, hs) := out in
      Ret (match rest with [] => last | _ => last' end, crh ++ crhs, xof ++ xofs, apk :: apks, h :: hs)
    end.
  (** lines 160-294 *)
  Definition verify_intermediate_epochs (w : validator_set_update E1 E2 H) (v0 : data_vars) : circ loop_output :=
    z <- is_eq_zero (Var (v_entropy v0)) ;;
    epochs_loop (vsu_epochs w) (mk_carried (v_keys v0) (v_index v0) (v_entropy v0) (v_max v0)) (negb z)
      (vsu_num_validators w) (match vsu_helper w with None => true | Some _ => false end).
  (** lines 298-312 *)
  Definition verify_signature (w : validator_set_update E1 E2 H) (apks : list E2) (hashes : list E1) : circ unit :=
    t <- alloc_g1 pin (smap to1 (get (vsu_signature w))) ;;
    batch_verify_prepared e gen2 apks hashes (of1 (affine1 t)).
  (** lines 102-153 *)
  Definition enforce_epochs (w : validator_set_update E1 E2 H) : circ epoch_bits :=
    v0 <- to_bits (vsu_initial w) ;;
    out <- verify_intermediate_epochs w v0 ;;
    let '(last, crh, xof, apks, hs) := out in
    verify_signature w apks hs ;;;
    Ret (mk_bits (v_first v0) last crh xof).

  (** ** epoch_bits.rs *)
  (** lines 138-146 *)
  Definition le_chunks (l : list bool) (chunk_size : nat) : list (list bool) := map (@rev bool) (chunks chunk_size l).
  (** CAPACITY of the scalar field of BLS12-377 *)
  Definition BLS_CAPACITY : nat := 252.
  (** lines 104-132: the proof is a witness; the Boolean that says whether it verifies is computed and dropped *)
  Definition verify_proof (helper : H) (b : epoch_bits) : circ unit :=
    proof <- witness (Val helper) ;;
    let _ := helper_verify proof (le_chunks (b_crh b) BLS_CAPACITY ++ le_chunks (b_xof b) BLS_CAPACITY) in
    Ret tt.
  (** lines 57-101 *)
  Definition edge_params : block_params := mk_block_params 32 0 1 1 0 0 0 0 0 (repeat 0 8) OUT_DOMAIN.
  Definition edge (bits : list bool) : circ (list bool) :=
    let message := rev bits in
    evaluate_blake2s (message ++ repeat false (8 * ((length message + 7) / 8) - length message)) edge_params.
  Definition verify_edges (b : epoch_bits) : circ (list fq) :=
    d1 <- edge (b_first b) ;;
    d2 <- edge (b_last b) ;;
    multipack (d1 ++ d2) CAPACITY.
  (** lines 42-53 *)
  Definition verify_bits (b : epoch_bits) (helper : option H) : circ (list fq) :=
    match helper with Some h => verify_proof h b | None => Ret tt end ;;;
    verify_edges b.
  (** epochs.rs lines 81-95: the output is the list of public inputs *)
  Definition generate_constraints (w : validator_set_update E1 E2 H) : circ (list fq) :=
    b <- enforce_epochs w ;;
    verify_bits b (vsu_helper w).
End Epochs.
