(** Concrete cases for C59: the two epochs of EpochExamples in the two-proof mode. *)
From Verif Require Import Base Constants Group Instances Field Curve BitsModel BitsProofs EncodingModel EncodingSpec EncodingProofs Blake2 HasherModel HasherSpec PointModel HashCurveModel HashCurveSpec HashCurveProofs
  Circuit CircuitFacts GadgetModel HashGadgetModel HashGadgetSpec HashGadgetProofs HashGadgetNative EpochCircuitModel EpochSpec EpochCircuitSpec EpochProofs EpochCircuitProofs EpochChainProofs
  ProverModel ProverSpec ProverProofs HelperModel HelperSpec HelperProofs PropProver PropHelper HashGadgetExamples EpochExamples.

Definition ts5 : list (transition z5_grp z5_grp) := [t6 9 n2 [true; false; true]] ++ [t7 n2].
(** a run of the epoch circuit with the expansions left to a helper proof *)
Example run5 : forall pin, exists (w : validator_set_update z5_grp z5_grp unit) b s, prove gen gen (Some (fun _ => Ok tt)) (Z.of_nat 3) (b5 1 keys5) ts5 2 = Ok w /\
  length (vsu_epochs w) = 2%nat /\ prover (enforce_epochs e5 gen gen of1 of2 to1 to2 fq_sqrt ped_one true pin false w) = Val (b, s).
Proof.
  intros pin. destruct (C46_complete z5_grp z5_grp z5_grp e5 gen gen of1 of2 to1 to2 fq_sqrt ped_one true pin false unit (fun _ _ => true) 3 (b5 1 keys5) [t6 9 n2 [true; false; true]] (t7 n2) 2 (Some (fun _ => Ok tt))
    fq_sqrt_ok eq_refl of1_neg gen_nz ltac:(vm_compute; reflexivity) (e5_linear gen) signatures_good (good5 1 n2 n3 n4 ltac:(lia)) chain5 sum7 ltac:(cbn; lia) ltac:(intros Hl; cbn in Hl; lia) (ex_intro _ tt eq_refl))
    as (w & i & P & L & R & _).
  unfold generate_constraints in R. apply prover_bind_any in R as (b & s1 & s2 & R & _). exists w, b, s1. auto.
Qed.
(** the messages of the helper instance *)
Lemma ped_48 m d : native_ped ped_one m = Ok d -> length d = 48%nat.
Proof. intros H. unfold native_ped, ped_one in H. apply ok_inj in H. subst d. apply le_bytes_length. Qed.
Example messages5 : exists shape, helper_messages gen (coords_of to2) (native_ped ped_one) ts5 = Ok shape.
Proof.
  assert (M : forall t : transition z5_grp z5_grp, exists o, helper_message gen (coords_of to2) (native_ped ped_one) t = Ok o).
  { intros t. unfold helper_message, encode_inner_to_bytes_cip22. destruct (encode_inner_to_bits_cip22 _ _ _) as [i x]. rewrite !bits_be_to_bytes_le_ok. eexists. reflexivity. }
  unfold helper_messages, ts5. cbn [app mapM]. destruct (M (t6 9 n2 [true; false; true])) as (o & ->). destruct (M (t7 n2)) as (o' & ->). eexists. reflexivity.
Qed.
(** so the prover's helper circuit runs *)
Example helper_run5 : exists shape inputs, helper_messages gen (coords_of to2) (native_ped ped_one) ts5 = Ok shape /\ prover (hash_to_bits_circuit shape) = Val (inputs, true) /\
  holds (hash_to_bits_circuit shape) inputs /\ exists ms, helper_statement shape inputs ms.
Proof.
  destruct messages5 as (shape & M). destruct (C59_instance z5_grp z5_grp gen (coords_of to2) (native_ped ped_one) ts5 shape ped_48 M) as (ds & ms & i & a & b & xs & _ & _ & P & _).
  exists shape, i. split; [exact M|]. split; [exact P|]. split; [apply prover_holds, P|]. apply C59_statement, prover_holds, P.
Qed.
(** and none of the expansions of these epochs is that of their inner hash *)
Example expansions5 : ~ expansion (le_bytes 48 1) digest6 /\ ~ expansion (le_bytes 48 1) digest7 /\ exists x, expansion (le_bytes 48 1) x.
Proof.
  split; [|split].
  - intros H. apply expansion_iff in H. revert H. vm_compute. discriminate.
  - intros H. apply expansion_iff in H. revert H. vm_compute. discriminate.
  - eexists. apply expansion_iff. reflexivity.
Qed.
(** the statement says something: a digest is bound to its expansion *)
Example bound5 : forall inputs ms, helper_statement (hash_to_bits_empty 1) inputs ms -> length ms = 1%nat /\ Forall (fun m => length m = 48%nat) ms.
Proof.
  intros inputs ms (F & _). pose proof (empty_384 1) as S. split; [apply forall2_len in F; symmetry; exact F|].
  clear - F S. induction F as [|o m sh ms [L _] _ IH]; constructor; inversion S; subst; [lia|apply IH; assumption].
Qed.
