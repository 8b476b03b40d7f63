(** C79 on two calls, from block 5 to 6 and from 6 to 7 of the validator of C71's example. *)
From Verif Require Import Base Constants Group Field Curve BlsModel BitsModel BitsProofs EncodingModel EncodingSpec Blake2 HasherModel HasherSpec PointModel HashCurveModel HashCurveSpec HashCurveProofs CodecSpec
  Circuit GadgetModel GadgetSpec HashGadgetModel HashGadgetSpec HashGadgetNative EpochCircuitModel EpochSpec EpochCircuitSpec ProverModel ProverSpec ProverProofs EpochHonest PropHashCurve PropProver HashGadgetExamples
  FfiModel FfiSpec PropFfi HelperModel SetupModel ShapeSpec LightSpec SetupProofs PropSetup CurveGroups PointCert CurveOrder TwistOrder CurveCount TwistCount OrderSpec OrderProofs TwistSpec TwistProofs CurvesSpec CurvesProofs PropCurves HashGadgetProofs EncodingProofs GadgetProofs HashCurveExamples
  EpochExamples LightExamples CurvesExamples SetupExamples SecretSpec SecretProofs PropSecret SecretExamples KnowledgeSpec PropKnowledge LightSessionSpec LightSessionData PropLightSession.

(** ** The third block *)
Definition c7 : epoch_block g2_curve := mk_block 7 0 (ent 11) (ent 10) 1 1 [gn g2_gen].
Lemma good_c7 : good_block g2_of g2_to 1 c7. Proof. apply good_c; [unfold wf_numbers; cbn; lia|vm_compute; auto|vm_compute; auto|reflexivity|reflexivity]. Qed.
Lemma c_block_c7 : c_block (as_ffi (raw c7)).
Proof. apply c_block_raw; [unfold wf_numbers; cbn; lia|vm_compute; split; [reflexivity|lia]|vm_compute; split; [reflexivity|lia]]. Qed.
Definition H7 : g1_curve := smul G1_COFACTOR (g1_of (Some pt7)).
Lemma H7_not_0 : H7 <> gz.
Proof.
  assert (C : multiple_by seven_cert G1_COFACTOR seven_x seven_y seven_cleared_x seven_cleared_y = true) by (vm_compute; reflexivity).
  apply multiple_ok in C as (_ & O & E). unfold H7. change (Some pt7) with (pt seven_x seven_y). rewrite E. apply pt_not_0, O.
Qed.
Lemma hash_c7 : block_hash g2_gen g1_of g2_to fq_sqrt ped_one true c7 H7.
Proof.
  assert (exists m, bits_be_to_bytes_le (fst (encode_inner_to_bits_cip22 (coords_of g2_to) g2_gen c7)) = Ok m) as (m & M) by (eexists; apply bits_be_to_bytes_le_ok).
  assert (exists x, bits_be_to_bytes_le (snd (encode_inner_to_bits_cip22 (coords_of g2_to) g2_gen c7)) = Ok x /\ xof_bytes SIG_DOMAIN ([0] ++ x ++ le_bytes 48 1) = digest7) as (x & X & D).
  { eexists. split; [vm_compute; reflexivity|vm_compute; reflexivity]. }
  exists m, x, 0. split.
  - unfold encode_inner_to_bytes_cip22. destruct (encode_inner_to_bits_cip22 (coords_of g2_to) g2_gen c7) as [l1 l2]. cbn [fst snd] in *. rewrite M, X. reflexivity.
  - apply C25_g1_cip22_least_counter.
    + apply composite_bytes. intros m' out E'. unfold native_ped, ped_one in E'. apply ok_inj in E'. subst out. apply le_bytes_is_bytes.
    + exact fq_sqrt_ok.
    + exists (le_bytes 48 1). split; [reflexivity|]. split; [lia|]. split; [|intros c' C; lia]. exists digest7. split; [|split; [cbn; lia|]].
      * cbn [xof composite_hasher]. rewrite <- D. exact (xof_bytes_ok SIG_DOMAIN ([0] ++ x ++ le_bytes 48 1) (Nat.le_refl 8)).
      * exists (Some pt7). split; [exact den7|]. split; [reflexivity|exact H7_not_0].
Qed.
Definition u7 : transition g1_curve g2_curve := mk_transition c7 (gn H7) [true].
Lemma signed_minus (H : g1_curve) : e71 (gn H) g2_gen = e71 H (gn g2_gen).
Proof. pose proof (e71_at (gn H) 1) as E. pose proof (e71_at H (-1)) as E'. rewrite !smul_1 in E. rewrite !minus_1 in E'. rewrite E, E', smul_gn. reflexivity. Qed.
Lemma chain_67 : honest e71 g2_gen g2_of g2_to (block_hash g2_gen g1_of g2_to fq_sqrt ped_one true) (has_entropy c6) 1 c6 ([] ++ [u7]).
Proof.
  eapply honest_step with (signing := [gn g2_gen]) (H := H7).
  - exact good_c7.
  - reflexivity.
  - intros _. reflexivity.
  - repeat constructor.
  - intros [X|[]]. exact (minus_not X).
  - rewrite sum_one. exact minus_not_0.
  - cbn. lia.
  - cbn. lia.
  - exact hash_c7.
  - unfold verifies. cbn [t_signature u7]. rewrite sum_one. exact (signed_minus H7).
  - constructor.
Qed.

(** ** An assignment for one transition, and the C function on its blocks *)
Notation read := (epoch_block_try_from fq2_sqrt g2_test).
Lemma read_raw b : good_block g2_of g2_to 1 b -> eb_keys b = [gn g2_gen] -> read (as_ffi (raw b)) = Ok (raw b).
Proof. intros G K. apply ffi_round; rewrite ?K; [exact fq2_sqrt_ok|exact G|vm_compute; reflexivity|exact key_valid71]. Qed.
Lemma assignment_for b u : good_block g2_of g2_to 1 b -> eb_keys (t_block u) = [gn g2_gen] -> length (t_bitmap u) = 1%nat ->
  honest e71 g2_gen g2_of g2_to (block_hash g2_gen g1_of g2_to fq_sqrt ped_one true) (has_entropy b) 1 b ([] ++ [u]) -> length (eb_keys b) = 1%nat ->
  exists inputs tape, (forall w0 : instance67, dims w0 = dims11 -> satisfies (circuit71 true w0) tape inputs) /\
    public_inputs g2_coords g2_sum g2_generator blake2_out (raw b) (raw (t_block u)) = Ok (Some (map fqv inputs)).
Proof.
  intros GB K LB CH KB.
  assert (Ec : exists c, g2_to (sum (eb_keys (t_block u))) = Some c) by (rewrite K, sum_one; exact (has_coords (gn g2_gen) minus_not_0)).
  destruct C67_curves as (Z & N & Hg & GS & _).
  destruct (C46_complete g1_curve g2_curve g1_curve e71 g1_gen g2_gen g1_of g2_of g1_to g2_to fq_sqrt ped_one true true false (unit * messages) (fun _ _ => true) 1 b [] u 1 None
    fq_sqrt_ok Z N Hg ltac:(vm_compute; reflexivity) e71_linear GS GB CH Ec (Nat.le_refl 1) (fun X => False_ind _ (Nat.lt_irrefl 1 X)) I) as (w & i & PR & _ & _ & HD & NI).
  apply C77_assignments in HD as [tape HD]. exists i, tape. split.
  - intros w0 D. eapply C77_same_assignments; [|exact HD]. 
    destruct (dims_prove g1_gen g2_gen None 1 b ([] ++ [u]) 1 w KB ltac:(repeat constructor; rewrite ?K; auto) PR) as [DW _]. rewrite D, DW. cbn [app map]. rewrite ?K. reflexivity.
  - rewrite inputs_raw in NI. exact NI.
Qed.

(** ** The session *)
Definition accept_two (i j : list Z) (_ : unit) (_ : unit) (given : list Z) : result bool :=
  Ok (if list_eq_dec Z.eq_dec given i then true else if list_eq_dec Z.eq_dec given j then true else false).
Lemma verify_two i j a b f l inputs : read a = Ok f -> read b = Ok l -> public_inputs g2_coords g2_sum g2_generator blake2_out f l = Ok (Some inputs) -> inputs = i \/ inputs = j ->
  ffi_verify fq2_sqrt g2_test (fun _ => Ok tt) (fun _ => Ok tt) (accept_two i j) blake2_out [] [] a b = Returns true None.
Proof.
  intros F L I H. unfold ffi_verify, snark_verify. rewrite F. cbn [rbind]. rewrite L. cbn [rbind]. rewrite I. cbn [rbind]. unfold accept_two.
  destruct (list_eq_dec Z.eq_dec inputs i) as [_|X]; [reflexivity|]. destruct (list_eq_dec Z.eq_dec inputs j) as [_|X']; [reflexivity|]. destruct H; [destruct (X H)|destruct (X' H)].
Qed.
Definition calls79 : list (bytes * epoch_block_ffi) := [([], as_ffi (raw c6)); ([], as_ffi (raw c7))].
Example ex_C79_accepted : exists i j (extract : unit -> list Z -> list cell),
  (forall w0 r0 key r1, generate_11 w0 r0 = Val (key, r1) -> extractable (fun pr given => accept_two i j key pr given = Ok true) (circuit71 true w0) extract) /\
  trusted_setup (fun s : messages => s) tt generate_h generate_11 1 1 1 0%nat false = Val (mk_parameters tt None, 1%nat) /\
  c_block (as_ffi (raw c5)) /\ Forall c_block (map snd calls79) /\
  session (fun pf a b => ffi_verify fq2_sqrt g2_test (fun _ => Ok tt) (fun _ => Ok tt) (accept_two i j) blake2_out [] pf a b = Returns true None) (as_ffi (raw c5)) calls79.
Proof.
  destruct (assignment_for c5 u6 good_c5 eq_refl eq_refl chain71 eq_refl) as (i & t & S & N).
  destruct (assignment_for c6 u7 good_c6 eq_refl eq_refl chain_67 eq_refl) as (j & t' & S' & N').
  exists (map fqv i), (map fqv j), (fun _ given => if list_eq_dec Z.eq_dec given (map fqv i) then t else t'). split; [|split; [reflexivity|split; [exact c_block_c5|split]]].
  - intros w0 r0 key r1 G pr given A. unfold generate_11 in G. destruct (dims_dec (dims w0) dims11) as [D|]; [|discriminate G].
    unfold accept_two in A. destruct (list_eq_dec Z.eq_dec given (map fqv i)) as [E|_]; [exists i; split; [exact E|exact (S w0 D)]|].
    destruct (list_eq_dec Z.eq_dec given (map fqv j)) as [E|_]; [|discriminate A]. exists j. split; [exact E|exact (S' w0 D)].
  - constructor; [exact c_block_c6|]. constructor; [exact c_block_c7|constructor].
  - split; [|split; [|exact I]].
    + exact (verify_two _ _ _ _ _ _ _ (read_raw c5 good_c5 eq_refl) (read_raw c6 good_c6 eq_refl) N (or_introl eq_refl)).
    + exact (verify_two _ _ _ _ _ _ _ (read_raw c6 good_c6 eq_refl) (read_raw c7 good_c7 eq_refl) N' (or_intror eq_refl)).
Qed.
(** What C79 then says. *)
Example ex_C79_steps : exists x y, s_first x = raw c5 /\ s_last x = raw c6 /\ s_first y = raw c6 /\ s_last y = raw c7 /\
  (step_collides x \/ step_collides y \/ same_committee (s_end x) (s_start y)).
Proof.
  destruct ex_C79_accepted as (i & j & extract & SO & U & CF & CS & X).
  destruct (C79_session g1_curve e71 fq_sqrt ped_one true false unit messages unit messages nat (fun s => s) tt (fun _ _ => true) fq2_sqrt unit unit (fun _ => Ok tt) (fun _ => Ok tt) (accept_two i j) (fun k => k) (fun _ => extract)) as [c K].
  destruct (K 1%nat 1%nat 1 0%nat generate_h generate_11 (mk_parameters tt None) 1%nat [] (as_ffi (raw c5)) calls79 e71_pairing fq2_sqrt_ok ltac:(reflexivity) Nat.lt_0_1 SO U eq_refl CF CS X)
    as ([|x [|y [|z l]]] & F & _ & Y); try (destruct F as [_ []]; fail); try (destruct F as [_ [_ []]]; fail); [destruct F|].
  destruct F as [(A & B & _) [(A' & B' & _) _]]. rewrite (read_raw c5 good_c5 eq_refl) in A. rewrite (read_raw c6 good_c6 eq_refl) in B, A'. rewrite (read_raw c7 good_c7 eq_refl) in B'.
  apply ok_inj in A, B, A', B'. exists x, y. split; [symmetry; exact A|]. split; [symmetry; exact B|]. split; [symmetry; exact A'|]. split; [symmetry; exact B'|].
  destruct Y as [Y|[_ (_ & Y & _)]]; [|right; right; exact Y]. inversion Y as [z l H|z l H]; subst; [left; exact H|]. inversion H as [z l H'|z l H']; subst; [right; left; exact H'|inversion H'].
Qed.
(** Another round and other unseen entropies, same answer. *)
Definition other (a : epoch_block_ffi) : epoch_block_ffi :=
  EpochBlockFFI (ef_index a) (ef_round a + 1) None (ef_parent_entropy a) (ef_pubkeys a) (ef_pubkeys_num a) (ef_max_non_signers a) (ef_max_validators a).
Lemma other_differs a x : ef_epoch_entropy a = Some x -> differ_unseen_first a (other a) /\ ef_epoch_entropy a <> ef_epoch_entropy (other a).
Proof. intros E. split; [unfold differ_unseen_first, other; cbn [ef_index ef_max_non_signers ef_max_validators ef_parent_entropy ef_pubkeys ef_pubkeys_num]; auto 8|rewrite E; intros K; discriminate K]. Qed.
Example ex_C79_unseen : differ_unseen_first (as_ffi (raw c5)) (other (as_ffi (raw c5))) /\ ef_epoch_entropy (as_ffi (raw c5)) <> ef_epoch_entropy (other (as_ffi (raw c5))).
Proof. exact (other_differs (as_ffi (raw c5)) (repeat 9 16) eq_refl). Qed.
