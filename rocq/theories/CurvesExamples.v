(** Concrete cases for C67: two epochs of one validator on the curves of BLS12-377.  The validator's key is minus the generator,
    the hash of the second block a multiple of the cofactor computed by certificate; the map in place of the pairing takes multiples of its first argument. *)
From Coq Require Import Field.
From Verif Require Import Base Constants Group Field Curve BlsModel BitsModel BitsProofs EncodingModel EncodingSpec Blake2 HasherModel HasherSpec PointModel HashCurveModel HashCurveSpec HashCurveProofs CodecSpec
  Circuit CircuitFacts GadgetModel GadgetSpec HashGadgetModel HashGadgetSpec HashGadgetNative EpochCircuitModel EpochSpec EpochCircuitSpec ProverModel ProverSpec ProverProofs PropHashCurve PropProver HashGadgetExamples
  FfiModel FfiSpec PropFfi HelperModel SetupModel ShapeSpec LightSpec PropSetup CurveGroups PointCert CurveOrder CurvesSpec CurvesProofs PropCurves EpochExamples LightExamples SetupExamples HashGadgetProofs EncodingProofs GadgetProofs HashCurveExamples SetupProofs HashedData.

(** 1 at the generator, -1 at its negative *)
Definition log_of (Q : g2_curve) : Z := if geqb Q g2_gen then 1 else if geqb Q (gn g2_gen) then - 1 else 0.
Definition e67 (P : g1_curve) (Q : g2_curve) : g1_curve := smul (log_of Q) P.
Lemma minus_1 {G : grp} (P : G) : smul (-1) P = gn P. Proof. exact (smul_opp 1 P). Qed.
Lemma minus_not : gn g2_gen <> g2_gen.
Proof.
  intros E. apply (f_equal g2_to) in E. apply (f_equal (fun P : g2_point => match P with Some (_, (y, _)) => fqv y | None => 0 end)) in E. vm_compute in E. discriminate E.
Qed.
Lemma log_gen : log_of g2_gen = 1.
Proof. unfold log_of. assert (geqb g2_gen g2_gen = true) as -> by (apply geqb_spec; reflexivity). reflexivity. Qed.
Lemma log_minus : log_of (gn g2_gen) = - 1.
Proof.
  unfold log_of. destruct (geqb (gn g2_gen) g2_gen) eqn:E; [apply geqb_spec in E; destruct (minus_not E)|].
  assert (geqb (gn g2_gen) (gn g2_gen) = true) as -> by (apply geqb_spec; reflexivity). reflexivity.
Qed.
Example e67_linear : linear_at e67 g2_gen.
Proof.
  split.
  - intros P P'. unfold e67. rewrite log_gen, !smul_1. reflexivity.
  - intros P. unfold e67. rewrite log_gen, log_minus, smul_1, minus_1. reflexivity.
Qed.

(** The blocks. *)
Definition c5 : epoch_block g2_curve := mk_block 5 0 (ent 9) (ent 8) 1 1 [gn g2_gen].
Definition c6 : epoch_block g2_curve := mk_block 6 0 (ent 10) (ent 9) 1 1 [gn g2_gen].
Lemma good_c (b : epoch_block g2_curve) : wf_numbers b -> good_entropy (eb_epoch_entropy b) -> good_entropy (eb_parent_entropy b) -> eb_max_validators b = 1 -> eb_keys b = [gn g2_gen] -> good_block g2_of g2_to 1 b.
Proof.
  intros W E P M K. split; [exact W|]. split; [exact E|]. split; [exact P|]. rewrite K, M. split; [reflexivity|]. split; [cbn; lia|].
  constructor; [|constructor]. destruct C67_curves as (_ & _ & _ & _ & _ & X & _). apply X.
Qed.
Lemma good_c5 : good_block g2_of g2_to 1 c5. Proof. apply good_c; [unfold wf_numbers; cbn; lia|vm_compute; auto|vm_compute; auto|reflexivity|reflexivity]. Qed.
Lemma good_c6 : good_block g2_of g2_to 1 c6. Proof. apply good_c; [unfold wf_numbers; cbn; lia|vm_compute; auto|vm_compute; auto|reflexivity|reflexivity]. Qed.

(** The hash of the second block. *)
Definition H6 : g1_curve := smul G1_COFACTOR (g1_of (Some pt6)).
Lemma H6_not_0 : H6 <> gz.
Proof.
  assert (C : multiple_by hashed_cert G1_COFACTOR hashed_x hashed_y cleared_x cleared_y = true) by (vm_compute; reflexivity).
  apply multiple_ok in C as (_ & O & E). unfold H6. change (Some pt6) with (pt hashed_x hashed_y). rewrite E. apply pt_not_0, O.
Qed.
Lemma hash_c6 : block_hash g2_gen g1_of g2_to fq_sqrt ped_one true c6 H6.
Proof.
  assert (exists m, bits_be_to_bytes_le (fst (encode_inner_to_bits_cip22 (coords_of g2_to) g2_gen c6)) = Ok m) as (m & M) by (eexists; apply bits_be_to_bytes_le_ok).
  assert (exists x, bits_be_to_bytes_le (snd (encode_inner_to_bits_cip22 (coords_of g2_to) g2_gen c6)) = Ok x /\ xof_bytes SIG_DOMAIN ([0] ++ x ++ le_bytes 48 1) = digest6) as (x & X & D).
  { eexists. split; [vm_compute; reflexivity|vm_compute; reflexivity]. }
  exists m, x, 0. split.
  - unfold encode_inner_to_bytes_cip22. destruct (encode_inner_to_bits_cip22 (coords_of g2_to) g2_gen c6) as [l1 l2]. cbn [fst snd] in *. rewrite M, X. reflexivity.
  - apply C25_g1_cip22_least_counter.
    + apply composite_bytes. intros m' out E'. unfold native_ped, ped_one in E'. apply ok_inj in E'. subst out. apply le_bytes_is_bytes.
    + exact fq_sqrt_ok.
    + exists (le_bytes 48 1). split; [reflexivity|]. split; [lia|]. split; [|intros c' C; lia]. exists digest6. split; [|split; [cbn; lia|]].
      * cbn [xof composite_hasher]. rewrite <- D. exact (xof_bytes_ok SIG_DOMAIN ([0] ++ x ++ le_bytes 48 1) (Nat.le_refl 8)).
      * exists (Some pt6). split; [exact den6|]. split; [reflexivity|exact H6_not_0].
Qed.
Definition u6 : transition g1_curve g2_curve := mk_transition c6 (gn H6) [true].
Lemma minus_not_0 : gn g2_gen <> gz.
Proof. intros E. apply g2_gen_nz. rewrite <- (gn_gn g2_gen), E. apply gn_0. Qed.
Lemma sum_one (K : g2_curve) : sum [K] = K.
Proof. rewrite <- sum_gsum. unfold gsum. cbn [fold_left]. apply ga_0_l. Qed.
Example chain67 : honest e67 g2_gen g2_of g2_to (block_hash g2_gen g1_of g2_to fq_sqrt ped_one true) (has_entropy c5) 1 c5 ([] ++ [u6]).
Proof.
  eapply honest_step with (signing := [gn g2_gen]) (H := H6).
  - exact good_c6.
  - reflexivity.
  - intros _. reflexivity.
  - repeat constructor.
  - intros [X|[]]. exact (minus_not X).
  - rewrite sum_one. exact minus_not_0.
  - cbn. lia.
  - cbn. lia.
  - exact hash_c6.
  - unfold verifies. cbn [t_signature u6]. rewrite sum_one. unfold e67. rewrite log_gen, log_minus, smul_1, minus_1. reflexivity.
  - constructor.
Qed.

(** A proof system whose proofs are the public inputs of a satisfied instance. *)
Notation instance67 := (validator_set_update g1_curve g2_curve (unit * messages)).
Notation circuit67 pin := (generate_constraints e67 g1_gen g2_gen g1_of g2_of g1_to g2_to fq_sqrt ped_one true pin false (fun (_ : unit * messages) _ => true)).
Definition create67 (pin : bool) (_ : unit) (w : instance67) : result bytes :=
  match prover (circuit67 pin w) with Val (inputs, true) => Ok (map fqv inputs) | _ => Err SerializationError end.
Definition check67 (_ : unit) (q given : list Z) : result bool := Ok (if list_eq_dec Z.eq_dec given q then true else false).
Definition generate67 (_ : instance67) (rng : nat) : synth (unit * nat) := Val (tt, S rng).
Lemma complete67 pin : complete_groth (circuit67 pin) generate67 (fun k => k) (create67 pin) (fun b => Ok b) check67.
Proof.
  intros w0 r0 k r1 w inputs _ _ R. exists (map fqv inputs), (map fqv inputs). unfold create67. rewrite R. split; [reflexivity|]. split; [reflexivity|].
  unfold check67. destruct (list_eq_dec Z.eq_dec (map fqv inputs) (map fqv inputs)) as [_|X]; [reflexivity|destruct X; reflexivity].
Qed.
Lemma key_valid : Forall (valid_key (fun _ => true)) (map g2_to [gn g2_gen]).
Proof.
  constructor; [|constructor]. intros Q E. split; [|reflexivity]. assert (O : on_twist (Some Q) = true) by (rewrite <- E; apply g2_to_on).
  destruct Q as [x y]. cbn [on_twist on_curve] in O. apply q2eqb_spec in O. exact O.
Qed.
Example ex_C67_accepted : forall pin, exists w bytes,
  prove g1_gen g2_gen None 1 c5 [u6] 1 = Ok w /\ create67 pin tt w = Ok bytes /\
  ffi_verify fq2_sqrt (fun _ => true) (fun _ => Ok tt) (fun b => Ok b) check67 blake2_out [] bytes (as_ffi (raw c5)) (as_ffi (raw c6)) = Returns true None.
Proof.
  intros pin. apply (C67_accepted g1_curve e67 fq_sqrt ped_one true false unit messages unit messages nat (fun s => s) tt (fun _ _ => true) fq2_sqrt (fun _ => true) unit (list Z)
    (fun _ => Ok tt) (fun b => Ok b) check67 (fun k => k) pin (create67 pin) 1 1 1 0%nat generate_h generate67 false (mk_parameters tt None) 1%nat (fun _ _ => Ok tt) [] c5 [] u6).
  - exact e67_linear.
  - exact fq_sqrt_ok.
  - exact fq2_sqrt_ok.
  - reflexivity.
  - apply complete67.
  - reflexivity.
  - reflexivity.
  - exact good_c5.
  - exact chain67.
  - cbn [t_block u6 c6 eb_keys]. rewrite sum_one. exact minus_not_0.
  - cbn. lia.
  - intros X. destruct (Nat.lt_irrefl 1 X).
  - exact I.
  - exact key_valid.
  - exact key_valid.
Qed.

(** Key generation for circuits of one validator and one epoch, and a proof system that accepts one list of inputs: they satisfy the circuit,
    and the C function accepts the two blocks. *)
Definition dims11 : dimensions := mk_dims 1 1 [(1, 1)]%nat false.
Definition generate_11 (c : instance67) (rng : nat) : synth (unit * nat) := if dims_dec (dims c) dims11 then Val (tt, S rng) else Fails Unsatisfiable.
Lemma c_block_raw (b : epoch_block g2_curve) : wf_numbers b -> entropy_ptr (eb_epoch_entropy b) -> entropy_ptr (eb_parent_entropy b) -> c_block (as_ffi (raw b)).
Proof.
  intros (A & B & C) E P. unfold c_block. cbn [as_ffi raw ef_index ef_round ef_max_non_signers ef_epoch_entropy ef_parent_entropy ef_pubkeys ef_pubkeys_num eb_index eb_round
    eb_max_non_signers eb_epoch_entropy eb_parent_entropy eb_keys]. destruct (C53_serialized_length (map g2_to (eb_keys b))) as [L Y]. rewrite L.
  split; [exact A|]. split; [exact B|]. split; [exact C|]. split; [exact E|]. split; [exact P|]. split; [exact Y|]. split; [lia|].
  rewrite !map_length. set (k := length _). etransitivity; [apply Z.mod_le; lia|lia].
Qed.
Lemma c_block_c5 : c_block (as_ffi (raw c5)).
Proof. apply c_block_raw; [unfold wf_numbers; cbn; lia|vm_compute; split; [reflexivity|lia]|vm_compute; split; [reflexivity|lia]]. Qed.
Lemma c_block_c6 : c_block (as_ffi (raw c6)).
Proof. apply c_block_raw; [unfold wf_numbers; cbn; lia|vm_compute; split; [reflexivity|lia]|vm_compute; split; [reflexivity|lia]]. Qed.
Lemma verify_by sqrt2 sub first last f l inputs : epoch_block_try_from sqrt2 sub first = Ok f -> epoch_block_try_from sqrt2 sub last = Ok l ->
  public_inputs g2_coords g2_sum g2_generator blake2_out f l = Ok (Some inputs) ->
  ffi_verify sqrt2 sub (fun _ => Ok tt) (fun _ => Ok tt) (accept_only inputs) blake2_out [] [] first last = Returns true None.
Proof.
  intros F L I. unfold ffi_verify, snark_verify. rewrite F. cbn [rbind]. rewrite L. cbn [rbind]. rewrite I. cbn [rbind]. unfold accept_only.
  destruct (list_eq_dec Z.eq_dec inputs inputs) as [_|X]; [reflexivity|destruct X; reflexivity].
Qed.
Example ex_C67_consecutive : exists inputs,
  (forall w0 r0 key r1, generate_11 w0 r0 = Val (key, r1) -> sound_for (fun pr given => accept_only (map fqv inputs) key pr given = Ok true) (holds (circuit67 true w0))) /\
  trusted_setup (fun s : messages => s) tt generate_h generate_11 1 1 1 0%nat false = Val (mk_parameters tt None, 1%nat) /\
  c_block (as_ffi (raw c5)) /\ c_block (as_ffi (raw c6)) /\ eb_index c6 = (eb_index c5 + 1) mod 2 ^ 16 /\
  ffi_verify fq2_sqrt (fun _ => true) (fun _ => Ok tt) (fun _ => Ok tt) (accept_only (map fqv inputs)) blake2_out [] [] (as_ffi (raw c5)) (as_ffi (raw c6)) = Returns true None.
Proof.
  assert (Ec : exists c, g2_to (sum (eb_keys (t_block u6))) = Some c).
  { cbn [t_block u6 c6 eb_keys]. rewrite sum_one. destruct (g2_to (gn g2_gen)) as [c|] eqn:E; [eauto|]. exfalso. apply minus_not_0. apply g2_to_inj. rewrite E. reflexivity. }
  destruct C67_curves as (Z & N & Hg & GS & _).
  destruct (C46_complete g1_curve g2_curve g1_curve e67 g1_gen g2_gen g1_of g2_of g1_to g2_to fq_sqrt ped_one true true false (unit * messages) (fun _ _ => true) 1 c5 [] u6 1 None
    fq_sqrt_ok Z N Hg ltac:(vm_compute; reflexivity) e67_linear GS good_c5 chain67 Ec (Nat.le_refl 1) (fun X => False_ind _ (Nat.lt_irrefl 1 X)) I) as (w & i & PR & _ & _ & HD & NI).
  exists i. split; [|split; [reflexivity|split; [exact c_block_c5|split; [exact c_block_c6|split; [reflexivity|]]]]].
  - intros w0 r0 key r1 G pr given A. unfold generate_11 in G. destruct (dims_dec (dims w0) dims11) as [D|]; [|discriminate G]. destruct key.
    unfold accept_only in A. destruct (list_eq_dec Z.eq_dec given (map fqv i)) as [->|]; [|discriminate A]. exists i. split; [reflexivity|].
    apply (C63_same_statement g1_curve g2_curve g1_curve e67 g1_gen g2_gen g1_of g2_of g1_to g2_to fq_sqrt ped_one true true false unit messages (fun _ _ => true) w0 w i); [|exact HD].
    destruct (dims_prove g1_gen g2_gen None 1 c5 ([] ++ [u6]) 1 w eq_refl ltac:(repeat constructor) PR) as [DW _]. rewrite D, DW. reflexivity.
  - assert (F : forall b, good_block g2_of g2_to 1 b -> eb_keys b = [gn g2_gen] -> epoch_block_try_from fq2_sqrt (fun _ => true) (as_ffi (raw b)) = Ok (raw b)).
    { intros b G K. apply ffi_round; rewrite ?K; [exact fq2_sqrt_ok|exact G|vm_compute; reflexivity|exact key_valid]. }
    change (t_block u6) with c6 in NI. rewrite inputs_raw in NI. exact (verify_by _ _ _ _ _ _ _ (F c5 good_c5 eq_refl) (F c6 good_c6 eq_refl) NI).
Qed.
