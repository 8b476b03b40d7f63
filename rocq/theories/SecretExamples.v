(** C71 on the two epochs of C67's example: the validator's private key is r - 1, the pairing is built from logarithms found by trying all of them. *)
From Verif Require Import Base Constants Group Field Curve BlsModel BitsModel EncodingModel EncodingSpec Blake2 HasherModel PointModel HashCurveModel HashCurveSpec HashCurveProofs CodecSpec
  Circuit GadgetModel GadgetSpec HashGadgetModel HashGadgetSpec HashGadgetNative EpochCircuitModel EpochSpec EpochCircuitSpec ProverModel ProverSpec ProverProofs EpochHonest PropHashCurve PropProver HashGadgetExamples
  FfiModel FfiSpec PropFfi HelperModel SetupModel ShapeSpec LightSpec SetupProofs PropSetup CurveGroups CurveOrder TwistOrder CurveCount TwistCount OrderSpec OrderProofs TwistSpec TwistProofs CurvesSpec CurvesProofs PropCurves EpochExamples LightExamples SetupExamples
  CurvesExamples RealSpec RealProofs RealExamples SecretSpec SecretProofs PropSecret.

(** ** The pairing *)
Definition e71 (P : g1_curve) (Q : g2_curve) : g1_curve := smul (log2 Q) (smul G1_COFACTOR P).
Lemma cleared71 (P : g1_curve) : smul r (smul G1_COFACTOR P) = gz. Proof. rewrite <- smul_mul. apply g1_kills. Qed.
Lemma log_change (P : g1_curve) a b : smul a g2_gen = smul b g2_gen -> smul a (smul G1_COFACTOR P) = smul b (smul G1_COFACTOR P).
Proof. exact (same_log g2_gen (smul G1_COFACTOR P) a b gen2_order gen2_not_0 (cleared71 P)). Qed.
Lemma e71_at P k : e71 P (smul k g2_gen) = smul k (smul G1_COFACTOR P).
Proof. apply log_change. symmetry. apply log2_ok, closed, gen2_order. Qed.
Example e71_pairing : curve_pairing e71.
Proof.
  split; [|split].
  - intros P P' Q _. unfold e71. rewrite !smul_ga. reflexivity.
  - intros P Q Q' K K'. apply in_g2_iff in K, K'. rewrite (log2_ok Q K), (log2_ok Q' K'), <- smul_add, !e71_at. apply smul_add.
  - pose proof (e71_at g1_gen 1) as E. rewrite !smul_1 in E. rewrite E. intros Z. apply gen_not_0. exact (two_killers r G1_COFACTOR g1_gen cof_apart gen_order Z).
Qed.
Example e71_linear : linear_at e71 g2_gen. Proof. exact (pairing_linear e71 e71_pairing). Qed.

(** ** Two messages, the keys 3 and 5 *)
Example ex_C71_equation : forall H H' : g1_curve, signed e71 g2_gen (ga (smul 3 H) (ga (smul 5 H') gz)) [(H, smul 3 g2_gen); (H', smul 5 g2_gen)].
Proof.
  intros H H'. apply (C71_equation g1_curve e71 _ [(H, 3); (H', 5)] e71_pairing); [repeat constructor; lia|reflexivity].
Qed.

(** ** The chain *)
Notation hd5 := (header_of g2_to c5).
Notation hd6 := (header_of g2_to c6).
Lemma minus_in_g2 : in_g2 (g2_to (gn g2_gen)).
Proof. apply in_g2_iff. rewrite smul_gn, gen2_order. apply gn_0. Qed.
Lemma keys71 b : eb_keys b = [gn g2_gen] -> keys_in_g2 (header_of g2_to b).
Proof. intros E. unfold keys_in_g2, header_of. cbn [h_keys]. rewrite E. constructor; [exact minus_in_g2|constructor]. Qed.
Lemma signed71 : e71 (gn H6) g2_gen = e71 H6 (gn g2_gen).
Proof.
  pose proof (e71_at (gn H6) 1) as E. pose proof (e71_at H6 (-1)) as E'. rewrite !smul_1 in E. rewrite !minus_1 in E'. rewrite E, E', smul_gn. reflexivity.
Qed.
Example certified71 : certified e71 g2_gen (opens_to g2_of) (hashes_to g1_of (native_ped ped_one) true) 1 hd5 [hd6] [(H6, gn g2_gen)] (gn H6).
Proof.
  split; [constructor; [apply (header_wf g2_of g2_to 1), good_c5|constructor; [apply (header_wf g2_of g2_to 1), good_c6|constructor]]|].
  split; [intros [|[|k]] h E; [apply LightProofs.some_inj in E; subst h; vm_compute; reflexivity|discriminate E|discriminate E]|].
  split; [intros _; split; [apply fq_ext; vm_compute; reflexivity|exact I]|].
  split; [split; [|split; [|exact I]]|].
  - destruct C67_curves as (Z & N & _). apply (header_hash g2_gen g1_of g2_of g2_to fq_sqrt ped_one true 1); [exact fq_sqrt_ok|exact Z|exact N|exact good_c6|exact hash_c6].
  - exists [true], [gn g2_gen]. split; [|split; [symmetry; apply sum_one|exact minus_not_0]].
    split; [intros X; discriminate X|]. split; [repeat constructor|]. split; [intros [X|[]]; exact (minus_not X)|]. vm_compute. split; [intros X; discriminate X|reflexivity].
  - unfold signed. cbn [map sum fold_right]. rewrite ga_0_r, (proj2 e71_linear), <- signed71. apply gn_l.
Qed.
Example ex_C71_chain : exists ps, signed_chain (hashes_to g1_of (native_ped ped_one) true) (committee_of hd5) [hd6] ps /\ same_in_g1 (gn H6) (aggregate_of ps).
Proof.
  apply (C71_chain g1_curve e71 ped_one true 1 hd5 [hd6] [(H6, gn g2_gen)] (gn H6) e71_pairing certified71); [apply keys71; reflexivity|constructor].
Qed.
(** The private key in it, and the signature itself. *)
Example ex_C71_exact : gn H6 = smul (r - 1) H6.
Proof.
  assert (K : smul r H6 = gz) by (unfold H6; rewrite <- smul_mul; apply g1_kills).
  apply C71_exact.
  - apply in_g1_iff. rewrite smul_gn, K. apply gn_0.
  - apply in_g1_iff. rewrite <- smul_mul, Z.mul_comm, smul_mul, K. apply smul_gz.
  - unfold same_in_g1. f_equal. unfold Z.sub. rewrite smul_add, K, smul_opp, smul_1. symmetry. apply ga_0_l.
Qed.

(** ** The C function *)
Notation circuit71 pin := (generate_constraints e71 g1_gen g2_gen g1_of g2_of g1_to g2_to fq_sqrt ped_one true pin false (fun (_ : unit * messages) _ => true)).
Lemma key_valid71 : Forall (valid_key g2_test) (map g2_to [gn g2_gen]).
Proof.
  constructor; [|constructor]. intros Q E. pose proof minus_in_g2 as M. assert (O : on_twist (Some Q) = true) by (rewrite <- E; apply g2_to_on). split.
  - destruct Q as [x y]. cbn [on_twist on_curve] in O. apply q2eqb_spec in O. exact O.
  - apply test_ok2; [exact O|]. rewrite E in M. exact M.
Qed.
Example chain71 : honest e71 g2_gen g2_of g2_to (block_hash g2_gen g1_of g2_to fq_sqrt ped_one true) (has_entropy c5) 1 c5 ([] ++ [u6]).
Proof.
  eapply honest_step with (signing := [gn g2_gen]) (H := H6).
  - exact good_c6.
  - reflexivity.
  - intros _. reflexivity.
  - repeat constructor.
  - intros [X|[]]. exact (minus_not X).
  - rewrite sum_one. exact minus_not_0.
  - cbn. lia.
  - cbn. lia.
  - exact hash_c6.
  - unfold verifies. cbn [t_signature u6]. rewrite sum_one. exact signed71.
  - constructor.
Qed.
Lemma has_coords (K : g2_curve) : K <> gz -> exists c, g2_to K = Some c.
Proof. intros N. destruct (g2_to K) as [c|] eqn:E; [eauto|]. exfalso. apply N. apply g2_to_inj. rewrite E. reflexivity. Qed.
Example ex_C71_verified : exists inputs,
  (forall w0 r0 key r1, generate_11 w0 r0 = Val (key, r1) -> sound_for (fun pr given => accept_only (map fqv inputs) key pr given = Ok true) (holds (circuit71 true w0))) /\
  trusted_setup (fun s : messages => s) tt generate_h generate_11 1 1 1 0%nat false = Val (mk_parameters tt None, 1%nat) /\
  c_block (as_ffi (raw c5)) /\ c_block (as_ffi (raw c6)) /\ eb_index c6 = (eb_index c5 + 1) mod 2 ^ 16 /\
  ffi_verify fq2_sqrt g2_test (fun _ => Ok tt) (fun _ => Ok tt) (accept_only (map fqv inputs)) blake2_out [] [] (as_ffi (raw c5)) (as_ffi (raw c6)) = Returns true None.
Proof.
  assert (Ec : exists c, g2_to (sum (eb_keys (t_block u6))) = Some c).
  { cbn [t_block u6 c6 eb_keys]. rewrite sum_one. exact (has_coords (gn g2_gen) minus_not_0). }
  destruct C67_curves as (Z & N & Hg & GS & _).
  destruct (C46_complete g1_curve g2_curve g1_curve e71 g1_gen g2_gen g1_of g2_of g1_to g2_to fq_sqrt ped_one true true false (unit * messages) (fun _ _ => true) 1 c5 [] u6 1 None
    fq_sqrt_ok Z N Hg ltac:(vm_compute; reflexivity) e71_linear GS good_c5 chain71 Ec (Nat.le_refl 1) (fun X => False_ind _ (Nat.lt_irrefl 1 X)) I) as (w & i & PR & _ & _ & HD & NI).
  exists i. split; [|split; [reflexivity|split; [exact c_block_c5|split; [exact c_block_c6|split; [reflexivity|]]]]].
  - intros w0 r0 key r1 G pr given A. unfold generate_11 in G. destruct (dims_dec (dims w0) dims11) as [D|]; [|discriminate G]. destruct key.
    unfold accept_only in A. destruct (list_eq_dec Z.eq_dec given (map fqv i)) as [->|]; [|discriminate A]. exists i. split; [reflexivity|].
    apply (C63_same_statement g1_curve g2_curve g1_curve e71 g1_gen g2_gen g1_of g2_of g1_to g2_to fq_sqrt ped_one true true false unit messages (fun _ _ => true) w0 w i); [|exact HD].
    destruct (dims_prove g1_gen g2_gen None 1 c5 ([] ++ [u6]) 1 w eq_refl ltac:(repeat constructor) PR) as [DW _]. rewrite D, DW. reflexivity.
  - assert (F : forall b, good_block g2_of g2_to 1 b -> eb_keys b = [gn g2_gen] -> epoch_block_try_from fq2_sqrt g2_test (as_ffi (raw b)) = Ok (raw b)).
    { intros b G K. apply ffi_round; rewrite ?K; [exact fq2_sqrt_ok|exact G|vm_compute; reflexivity|exact key_valid71]. }
    change (t_block u6) with c6 in NI. rewrite inputs_raw in NI. exact (verify_by _ _ _ _ _ _ _ (F c5 good_c5 eq_refl) (F c6 good_c6 eq_refl) NI).
Qed.
(** What C71 then says of these two blocks. *)
Example ex_C71_consecutive : exists f l (h0 hl : header g2_curve), epoch_block_try_from fq2_sqrt g2_test (as_ffi (raw c5)) = Ok f /\ epoch_block_try_from fq2_sqrt g2_test (as_ffi (raw c6)) = Ok l /\
  (collides (first_bits h0) (enc_first f) \/ (exists agg, sums_to g2_to hl agg /\ collides (closing_bits hl ++ agg) (enc_last l)) \/ (shows_first g2_of h0 f /\ shows_last g2_of hl l)).
Proof.
  destruct ex_C71_verified as (inputs & SO & U & CF & CL & _ & X).
  destruct (C71_consecutive g1_curve e71 fq_sqrt ped_one true false unit messages unit messages nat (fun s => s) tt (fun _ _ => true) fq2_sqrt unit unit (fun _ => Ok tt) (fun _ => Ok tt) (accept_only (map fqv inputs)) (fun k => k)
    1 1 1 0%nat generate_h generate_11 (mk_parameters tt None) 1%nat [] [] (as_ffi (raw c5)) (as_ffi (raw c6)) e71_pairing fq2_sqrt_ok ltac:(reflexivity) Nat.lt_0_1 ltac:(reflexivity) SO U eq_refl CF CL X)
    as (f & l & h0 & hl & EF & EL & Y). exists f, l, h0, hl. split; [exact EF|]. split; [exact EL|]. destruct Y as [Y|[Y|(Y1 & Y2 & _)]]; auto.
Qed.
