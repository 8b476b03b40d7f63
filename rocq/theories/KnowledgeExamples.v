(** C77 on the two epochs of C71's example: a proof system whose extractor returns the assignment of the one instance it accepts. *)
From Verif Require Import Base Constants Group Field Curve BlsModel BitsModel EncodingModel EncodingSpec Blake2 HasherModel PointModel HashCurveModel HashCurveSpec HashCurveProofs CodecSpec
  Circuit GadgetModel GadgetSpec HashGadgetModel HashGadgetSpec HashGadgetNative EpochCircuitModel EpochSpec EpochCircuitSpec ProverModel ProverSpec ProverProofs EpochHonest PropHashCurve PropProver HashGadgetExamples
  FfiModel FfiSpec PropFfi HelperModel SetupModel ShapeSpec LightSpec SetupProofs PropSetup CurveGroups CurveOrder TwistOrder CurveCount TwistCount OrderSpec OrderProofs TwistSpec TwistProofs CurvesSpec PropCurves
  LightExamples CurvesExamples SetupExamples SecretSpec SecretProofs PropSecret SecretExamples KnowledgeSpec PropKnowledge.

Example ex_C77_accepted : exists inputs tape,
  (forall w0 r0 key r1, generate_11 w0 r0 = Val (key, r1) -> extractable (fun pr given => accept_only (map fqv inputs) key pr given = Ok true) (circuit71 true w0) (fun _ _ => tape)) /\
  trusted_setup (fun s : messages => s) tt generate_h generate_11 1 1 1 0%nat false = Val (mk_parameters tt None, 1%nat) /\
  c_block (as_ffi (raw c5)) /\ c_block (as_ffi (raw c6)) /\ eb_index c6 = (eb_index c5 + 1) mod 2 ^ 16 /\
  ffi_verify fq2_sqrt g2_test (fun _ => Ok tt) (fun _ => Ok tt) (accept_only (map fqv inputs)) blake2_out [] [] (as_ffi (raw c5)) (as_ffi (raw c6)) = Returns true None.
Proof.
  destruct ex_C71_verified as (i & SO & U & CF & CL & IX & X). 
  destruct (generate_11 (validator_set_update_empty tt 1 1 1 None) 0%nat) as [[key r1]|er|] eqn:G; [|vm_compute in G; discriminate G|vm_compute in G; discriminate G].
  destruct key. destruct (SO _ _ _ _ G tt (map fqv i)) as (xs & E & H).
  { unfold accept_only. destruct (list_eq_dec Z.eq_dec (map fqv i) (map fqv i)) as [_|N]; [reflexivity|destruct (N eq_refl)]. }
  apply C77_assignments in H as [tape H]. exists i, tape. split; [|auto].
  intros w0 r0 key r2 G' pr given A. destruct key. exists xs. 
  unfold accept_only in A. destruct (list_eq_dec Z.eq_dec given (map fqv i)) as [->|]; [|discriminate A]. split; [exact E|].
  eapply C77_same_assignments; [|exact H].
  unfold generate_11 in G, G'. destruct (dims_dec (dims w0) dims11) as [D|]; [|discriminate G']. rewrite D. reflexivity.
Qed.
(** What C77 then says: a number that turns a point of the extracted assignment into the validator's signature on the second block. *)
Example ex_C77_known : exists tape (h0 hl : header g2_curve) s, contains_header g2_of tape h0 /\ contains_header g2_of tape hl /\ contains_g1 g1_of tape s /\
  exists f l, epoch_block_try_from fq2_sqrt g2_test (as_ffi (raw c5)) = Ok f /\ epoch_block_try_from fq2_sqrt g2_test (as_ffi (raw c6)) = Ok l /\
  (collides (first_bits h0) (enc_first f) \/ (exists agg, sums_to g2_to hl agg /\ collides (closing_bits hl ++ agg) (enc_last l)) \/ (shows_first g2_of h0 f /\ shows_last g2_of hl l)).
Proof.
  destruct ex_C77_accepted as (inputs & tape & SO & U & CF & CL & _ & X).
  destruct (C77_known_consecutive g1_curve e71 fq_sqrt ped_one true false unit messages unit messages nat (fun s => s) tt (fun _ _ => true) fq2_sqrt unit unit (fun _ => Ok tt) (fun _ => Ok tt) (accept_only (map fqv inputs)) (fun k => k) (fun _ _ _ => tape)) as [c K].
  destruct (K 1%nat 1%nat 1 0%nat generate_h generate_11 (mk_parameters tt None) 1%nat [] [] (as_ffi (raw c5)) (as_ffi (raw c6)) e71_pairing fq2_sqrt_ok ltac:(reflexivity) Nat.lt_0_1 ltac:(reflexivity) SO U eq_refl CF CL X)
    as (f & l & pr & i & h0 & hl & s & EF & EL & _ & _ & C0 & C1 & CS & Y).
  exists tape, h0, hl, s. split; [exact C0|]. split; [exact C1|]. split; [exact CS|]. exists f, l. split; [exact EF|]. split; [exact EL|]. destruct Y as [Y|[Y|(Y1 & Y2 & _)]]; auto.
Qed.
