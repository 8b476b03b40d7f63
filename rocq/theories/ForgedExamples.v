(** C82 on the two epochs of C77's example: the only validator has the private key -1, and the proof gives the signature made with it. *)
From Coq Require Import Permutation.
From Verif Require Import Base Constants Group Field Curve BlsModel BitsModel EncodingModel EncodingSpec Blake2 HasherModel PointModel HashCurveModel HashCurveSpec HashCurveProofs CodecSpec
  Circuit GadgetModel GadgetSpec HashGadgetModel HashGadgetSpec HashGadgetNative EpochCircuitModel EpochSpec EpochCircuitSpec ProverModel ProverSpec ProverProofs EpochHonest PropHashCurve PropProver HashGadgetExamples
  FfiModel FfiSpec PropFfi HelperModel SetupModel ShapeSpec LightSpec SetupProofs PropSetup CurveGroups CurveOrder TwistOrder CurveCount TwistCount OrderSpec OrderProofs TwistSpec TwistProofs CurvesSpec PropCurves
  LightExamples CurvesExamples SetupExamples SecretSpec SecretProofs PropSecret SecretExamples KnowledgeSpec PropKnowledge KnowledgeExamples LightSessionExamples KnowledgeLight RealExamples RealModel ReductionSpec ReductionExamples PropForged.

Lemma only_signer (f : epoch_block g2_point) A bitmap signing : padded_keys f = [A] -> signers (padded_keys f) bitmap signing -> signing <> [] -> signing = [A].
Proof.
  intros -> S N. inversion S as [|? ? bs l S' |? ? bs l S' ]; subst; inversion S'; subst; [reflexivity|destruct (N eq_refl)].
Qed.
Definition minus : g2_point := g2_to (gn g2_gen).
Lemma no_padding (b : epoch_block g2_point) ks : eb_keys b = ks -> eb_max_validators b = Z.of_nat (length ks) -> padded_keys b = ks.
Proof. intros E M. unfold padded_keys. rewrite E, M, Nat2Z.id, Nat.sub_diag. cbn [repeat]. apply app_nil_r. Qed.
Lemma keys_c5 : padded_keys (raw c5) = [minus].
Proof. apply no_padding; [unfold raw, c5, minus; cbn [eb_keys map]; reflexivity|reflexivity]. Qed.
Lemma not_midpoint y : negb (fqv (snd y) =? (p - 1) / 2) && negb (fqv (snd y) =? 0) = true -> ~ undetermined y.
Proof.
  intros E. apply andb_true_iff in E as (E1 & E2). apply negb_true_iff, Z.eqb_neq in E1. apply negb_true_iff, Z.eqb_neq in E2.
  intros [U|[U _]]; [exact (E1 U)|apply E2; rewrite U; reflexivity].
Qed.
Lemma determined_minus : ~ undetermined (snd (g2_coords (g2_neg minus))).
Proof. apply not_midpoint. vm_cast_no_check (eq_refl true). Qed.
Example ex_C82 : exists tape c (h0 hl : header g2_curve) s H, contains_header g2_of tape h0 /\ contains_header g2_of tape hl /\ contains_g1 g1_of tape s /\
  exists f l, epoch_block_try_from fq2_sqrt g2_test (as_ffi (raw c5)) = Ok f /\ epoch_block_try_from fq2_sqrt g2_test (as_ffi (raw c6)) = Ok l /\
  (collides (first_bits h0) (enc_first f) \/ (exists agg, sums_to g2_to hl agg /\ collides (closing_bits hl ++ agg) (enc_last l)) \/
   (shows_last g2_of hl l /\ hashes_to g1_of (native_ped ped_one) true hl H /\ answers minus (g1_to H) (extracted 1 (g1_to (smul c (ga s (gn (smul 0 g1_gen))))) []))).
Proof.
  destruct ex_C77_accepted as (inputs & tape & SO & U & CF & CL & IX & X).
  destruct (C82_forged_proof g1_curve e71 fq_sqrt ped_one true false unit messages unit messages nat (fun s => s) tt (fun _ _ => true) fq2_sqrt unit unit (fun _ => Ok tt) (fun _ => Ok tt) (accept_only (map fqv inputs)) (fun k => k) (fun _ _ _ => tape)
    g1_curve e70 e70_bilinear true ped70 fq_sqrt fq2_sqrt ped70_bytes fq_sqrt_ok fq2_sqrt_ok) as [c K].
  destruct (K 1%nat 1%nat 1 0%nat generate_h generate_11 (mk_parameters tt None) 1%nat [] [] (as_ffi (raw c5)) (as_ffi (raw c6)) e71_pairing fq2_sqrt_ok ltac:(reflexivity) Nat.lt_0_1 ltac:(reflexivity) SO U eq_refl CF CL X)
    as (f & l & pr & i & h0 & hl & s & EF & EL & _ & _ & C0 & C1 & CS & Y).
  destruct Y as [Y|[Y|(SF & SL & Y)]].
  - exists tape, c, h0, hl, s, gz. split; [exact C0|]. split; [exact C1|]. split; [exact CS|]. exists f, l. auto.
  - exists tape, c, h0, hl, s, gz. split; [exact C0|]. split; [exact C1|]. split; [exact CS|]. exists f, l. auto.
  - assert (f = raw c5) by (pose proof (read_raw c5 good_c5 eq_refl) as E; rewrite EF in E; injection E; auto). subst f.
    assert (l = raw c6) by (pose proof (read_raw c6 good_c6 eq_refl) as E; rewrite EL in E; injection E; auto). subst l.
    destruct (Y IX) as (H & bitmap & signing & HH & SG & NE & _ & _ & AN); [rewrite keys_c5; constructor; [exact determined_minus|constructor]|].
    rewrite (only_signer _ _ _ _ keys_c5 SG NE) in AN.
    assert (IH : in_g1 (g1_to H)) by (apply in_g1_iff; exact (KnowledgeLight.hash_in_g1 _ _ _ _ HH)).
    exists tape, c, h0, hl, s, H. split; [exact C0|]. split; [exact C1|]. split; [exact CS|]. exists (raw c5), (raw c6). split; [exact EF|]. split; [exact EL|]. right. right. split; [exact SL|]. split; [exact HH|].
    apply (AN (g1_to H) 1 minus []); [exact IH|split; [lia|reflexivity]|symmetry; exact (times_1 _ IH)|apply Permutation_refl|constructor].
Qed.
