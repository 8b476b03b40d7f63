(** C62: an accepted call that meets the hypotheses, with the groups and blocks of EpochExamples.v. *)
From Verif Require Import Base Constants Group Field Curve BlsModel BitsModel BitsProofs EncodingModel EncodingSpec EncodingProofs Blake2 HasherModel HasherSpec PointModel HashCurveModel HashCurveSpec HashCurveProofs CodecSpec
  Circuit CircuitFacts GadgetModel GadgetSpec HashGadgetModel HashGadgetSpec HashGadgetExamples EpochCircuitModel EpochSpec EpochCircuitSpec EpochProofs EpochHonest ProverModel ProverSpec ProverProofs
  PropEpoch PropProver GadgetProofs EpochExamples FfiModel FfiSpec FfiDataProofs CodecModel PropFfi LightSpec LightProofs PropLight.

(** The blocks of epochs 5 and 7 as C passes them. *)
Definition points (b : epoch_block z5_grp) : epoch_block g2_point :=
  mk_block (eb_index b) (eb_round b) (eb_epoch_entropy b) (eb_parent_entropy b) (eb_max_non_signers b) (eb_max_validators b) (map to2 (eb_keys b)).
Definition as_c (b : epoch_block g2_point) : epoch_block_ffi :=
  EpochBlockFFI (eb_index b) (eb_round b) (eb_epoch_entropy b) (eb_parent_entropy b) (serialize_pubkeys (eb_keys b)) (Z.of_nat (length (eb_keys b)))
    (eb_max_non_signers b) (eb_max_validators b).
Notation conv := (epoch_block_try_from fq2_sqrt (fun _ => true)).
Lemma to2_on K : on_twist (to2 K) = true. Proof. destruct K; vm_compute; reflexivity. Qed.
Lemma to2_valid K : valid_key (fun _ => true) (to2 K).
Proof. intros [x y] E. split; [|reflexivity]. pose proof (to2_on K) as T. rewrite E in T. apply on_twist_spec in T. exact T. Qed.
Lemma conv_points b : (forall en, eb_epoch_entropy b = Some en -> length en = 16%nat) -> (forall en, eb_parent_entropy b = Some en -> length en = 16%nat) ->
  Z.of_nat (length (eb_keys b)) * 96 < 2 ^ 64 -> conv (as_c (points b)) = Ok (points b).
Proof.
  intros H1 H2 L. unfold as_c. rewrite <- (app_nil_r (serialize_pubkeys _)). apply C53_block_round_trip; try assumption; [exact fq2_sqrt_ok|cbn [points eb_keys]; rewrite map_length; exact L|].
  cbn [points eb_keys]. apply Forall_map. apply Forall_forall. intros K _. apply to2_valid.
Qed.
Lemma c_block_points b : wf_numbers b -> entropy_ptr (eb_epoch_entropy b) -> entropy_ptr (eb_parent_entropy b) -> c_block (as_c (points b)).
Proof.
  intros (A & B & C) E P. unfold c_block. cbn [as_c points ef_index ef_round ef_max_non_signers ef_epoch_entropy ef_parent_entropy ef_pubkeys ef_pubkeys_num eb_index eb_round
    eb_max_non_signers eb_epoch_entropy eb_parent_entropy eb_keys]. destruct (C53_serialized_length (map to2 (eb_keys b))) as [L Y]. rewrite L.
  split; [exact A|]. split; [exact B|]. split; [exact C|]. split; [exact E|]. split; [exact P|]. split; [exact Y|]. split; [lia|].
  rewrite !map_length. set (k := length _). etransitivity; [apply Z.mod_le; lia|lia].
Qed.

(** Their boundary encodings are those of the blocks over the small group. *)
Lemma points_padded b : encode_keys_padded (coords_of to2) gen b = encode_keys_padded g2_coords g2_generator (points b).
Proof. unfold encode_keys_padded. cbn [points eb_keys eb_max_validators]. rewrite map_length, flat_map_map. reflexivity. Qed.
Lemma points_bits b t : encode_to_bits_cip22 (coords_of to2) gen b t = encode_to_bits_cip22 g2_coords g2_generator (points b) t.
Proof. unfold encode_to_bits_cip22. rewrite points_padded. reflexivity. Qed.
Lemma sum_points7 : g2_sum (map to2 (eb_keys b7)) = to2 (gsum (eb_keys b7)).
Proof.
  change (gsum (eb_keys b7)) with (n4 : z5_grp). cbn [b7 eb_keys map].
  assert (E : peqb (g2_sum [to2 n4; to2 n3; to2 n2]) (to2 n4) = true) by (vm_compute; reflexivity).
  destruct (g2_sum [to2 n4; to2 n3; to2 n2]) as [[x y]|]; destruct (to2 n4) as [[x' y']|]; cbn [peqb] in E; try discriminate E; [|reflexivity].
  apply andb_prop in E as [Ex Ey]. apply q2eqb_spec in Ex, Ey. subst. reflexivity.
Qed.
Lemma points_inputs b : public_inputs (coords_of to2) gsum gen blake2_out b b7 = public_inputs g2_coords g2_sum g2_generator blake2_out (points b) (points b7).
Proof.
  unfold public_inputs, hash_first_last_epoch_block, blake2_first_epoch, blake2_last_epoch, encode_first_epoch_to_bytes_cip22, encode_last_epoch_to_bytes_with_aggregated_pk_cip22, encode_last_to_bits_with_agg.
  rewrite !points_bits. cbn [points eb_keys]. rewrite sum_points7. reflexivity.
Qed.

(** A proof system that accepts the public inputs of this chain and nothing else. *)
Definition accept_only (inputs : list Z) (_ : unit) (_ : unit) (given : list Z) : result bool := Ok (if list_eq_dec Z.eq_dec given inputs then true else false).
Example ex_C62 : exists (w : validator_set_update z5_grp z5_grp unit) inputs,
  sizes 3 w /\ vsu_helper w = None /\ List.length (vsu_epochs w) = 2%nat /\
  sound_for (fun q given => accept_only (map fqv inputs) tt q given = Ok true) (holds (circuit5 true w)) /\
  c_block (as_c (points (b5 1 keys5))) /\ c_block (as_c (points b7)) /\
  ffi_verify fq2_sqrt (fun _ => true) (fun _ => Ok tt) (fun _ => Ok tt) (accept_only (map fqv inputs)) blake2_out [] [] (as_c (points (b5 1 keys5))) (as_c (points b7)) = Returns true None.
Proof.
  destruct (C46_complete z5_grp z5_grp z5_grp e5 gen gen of1 of2 to1 to2 fq_sqrt ped_one true true false unit (fun _ _ => true) 3 (b5 1 keys5) [t6 9 n2 [true; false; true]] (t7 n2) 2 None
    fq_sqrt_ok eq_refl of1_neg gen_nz ltac:(vm_compute; reflexivity) (e5_linear gen) signatures_good (good5 1 n2 n3 n4 ltac:(lia)) chain5 sum7 ltac:(cbn; lia) (fun _ => padding6 9) I)
    as (w & i & P & L & _ & HD & NI).
  exists w, i. split; [eapply sizes_of; [exact P|reflexivity|repeat constructor]|]. split.
  { unfold prove in P. rewrite updates_ok in P by (cbn; lia). cbn [rbind] in P. rewrite signature_ok in P by (cbn; lia). apply HashGadgetNative.ok_inj in P. subst w. reflexivity. }
  split; [exact L|]. split.
  { intros q given A. unfold accept_only in A. destruct (list_eq_dec Z.eq_dec given (map fqv i)) as [->|]; [|discriminate A]. exists i. auto. }
  split; [apply c_block_points; [unfold wf_numbers; cbn; lia|vm_compute; split; [reflexivity|lia]|vm_compute; split; [reflexivity|lia]]|].
  split; [apply c_block_points; [unfold wf_numbers; cbn; lia|vm_compute; split; [reflexivity|lia]|vm_compute; split; [reflexivity|lia]]|].
  assert (LE : forall k (en : bytes), ent k = Some en -> length en = 16%nat) by (intros k en E; apply LightProofs.some_inj in E; subst en; apply repeat_length).
  apply C58_verify_accepts. destruct (digests_exist blake2_out HasherProofs.blake2_out_length (points (b5 1 keys5)) (points b7)) as (m1 & m2 & E1 & E2 & D).
  exists (points (b5 1 keys5)), (points b7), tt, tt, m1, m2. split; [apply conv_points; [apply LE|apply LE|cbn; lia]|]. split; [apply conv_points; [apply LE|apply LE|cbn; lia]|].
  split; [reflexivity|]. split; [reflexivity|]. split; [exact E1|]. split; [exact E2|].
  change (t_block (t7 n2)) with b7 in NI. rewrite points_inputs, D in NI. apply LightProofs.ok_inj, LightProofs.some_inj in NI. rewrite NI. unfold accept_only.
  destruct (list_eq_dec Z.eq_dec (map fqv i) (map fqv i)) as [_|X]; [reflexivity|destruct X; reflexivity].
Qed.
(** The step from epoch 6 to epoch 7, for the other theorems. *)
Notation h6 := (header_of to2 (b6 9)).
Notation h7 := (header_of to2 b7).
Lemma wf_points b : good b -> wf_block (points b).
Proof.
  intros (W & EE & PE & _ & _ & _). split; [exact W|]. split; [cbn [points eb_epoch_entropy]; destruct (eb_epoch_entropy b) as [l|]; [destruct EE as [B L]; split; [exact B|lia]|exact I]|].
  split; [cbn [points eb_parent_entropy]; destruct (eb_parent_entropy b) as [l|]; [destruct PE as [B L]; split; [exact B|lia]|exact I]|].
  cbn [points eb_keys]. apply forallb_forall. intros x X. apply in_map_iff in X as (K & <- & _). apply to2_on.
Qed.
Example certified7 : certified e5 gen (opens_to of2) (hashes_to of1 (native_ped ped_one) true) 3 h6 ([] ++ [h7]) [(n3 : z5_grp, n4 : z5_grp)] n2.
Proof.
  split; [constructor; [apply (header_wf of2 to2 3), good6; lia|constructor; [apply (header_wf of2 to2 3), good7|constructor]]|].
  split; [intros [|[|k]] h E; [apply LightProofs.some_inj in E; subst h; vm_compute; reflexivity|discriminate E|discriminate E]|].
  split; [intros _; split; [apply fq_ext; vm_compute; reflexivity|exact I]|]. split; [|reflexivity].
  split; [apply (header_hash gen of1 of2 to2 fq_sqrt ped_one true 3); [exact fq_sqrt_ok|reflexivity|exact of1_neg|exact good7|exact hash7]|]. split; [|exact I].
  exists [false; true; true], [n2; n2]. split; [|split; [reflexivity|discriminate]].
  split; [discriminate|]. split; [signers_solve|]. split; [not_in|]. vm_compute. split; [discriminate|reflexivity].
Qed.
Example shown6 : shows_first of2 h6 (points (b6 9)).
Proof.
  apply (C44_first_shown z5_grp of2 3); [apply (header_wf of2 to2 3), good6; lia|apply wf_points, good6; lia|].
  rewrite (header_first gen of2 to2 3) by (apply good6; lia). rewrite points_bits. unfold enc_first, encode_first_epoch_to_bytes_cip22. exact eq_refl.
Qed.
Example shown7 : shows_last of2 h7 (points b7).
Proof.
  destruct sum7 as ([x y] & Ec). apply (C44_last_shown z5_grp of2 to2 3 _ _ (encode_coords (x, y))).
  - apply (header_wf of2 to2 3), good7.
  - exists (x, y). split; [exact Ec|left; reflexivity].
  - apply wf_points, good7.
  - rewrite (header_closing gen of2 to2 3) by exact good7. rewrite points_bits. unfold enc_last, encode_last_epoch_to_bytes_with_aggregated_pk_cip22, encode_last_to_bits_with_agg.
    assert (A : encode_coords (x, y) = encode_public_key g2_coords (g2_sum (eb_keys (points b7)))).
    { change (eb_keys (points b7)) with (map to2 (eb_keys b7)). rewrite sum_points7. unfold encode_public_key. rewrite sum_gsum, Ec. exact eq_refl. }
    rewrite A. exact eq_refl.
Qed.
Example ex_C62_distance : eb_index (points b7) = (eb_index (points (b6 9)) + Z.of_nat (length ([] ++ [h7]))) mod 2 ^ 16.
Proof. exact (C62_distance z5_grp z5_grp z5_grp e5 gen of1 of2 ped_one true 3 h6 [] h7 _ _ _ _ certified7 shown6 shown7). Qed.
Example ex_C62_one_transition : exists (H : z5_grp) (signing : list z5_grp), e5 n2 gen = e5 H (sum signing) /\ 2 <= Z.of_nat (length signing).
Proof.
  destruct (C62_one_transition z5_grp z5_grp z5_grp e5 gen of1 of2 ped_one true 3 h6 [] h7 _ _ _ _ (e5_linear gen) certified7 shown6 shown7 ltac:(reflexivity) ltac:(reflexivity))
    as (_ & H & sg & _ & E & _ & _ & L). exists H, sg. split; [exact E|]. change (3 - 1 <= Z.of_nat (length sg)) in L. lia.
Qed.
