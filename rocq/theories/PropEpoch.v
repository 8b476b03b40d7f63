(** C37, C39, C41-C45, C56: the epoch circuit.  [holds c x]: some assignment of the witnesses satisfies every
    constraint of [c] and makes its output [x] (here the public inputs).  [e]: the pairing; [of1], [of2]: points as
    group elements; [to1], [to2]: coordinates; [ped]: the Pedersen hash; [pin]: the last projective coordinate of
    allocated points is 0 or 1. *)
From Coq Require Import Permutation.
From Verif Require Import Base Constants Group Field Curve BitsModel BitsProofs EncodingModel EncodingSpec EncodingProofs Blake2 HasherModel HasherSpec PointModel HashCurveModel HashCurveSpec CodecSpec
  Circuit CircuitFacts GadgetModel GadgetSpec HashGadgetModel HashGadgetSpec HashGadgetProofs HashGadgetNative EpochCircuitModel EpochSpec EpochCircuitSpec EpochProofs EpochCircuitProofs EpochChainProofs
  ProverModel ProverSpec ProverProofs EpochHonest EpochBinding.

(** ** C41 *)
Theorem C41_low_bits : forall x n, (n <= 377)%nat -> length (fr_to_bits x n) = n /\ bits_number_le (fr_to_bits x n) = fqv x mod 2 ^ Z.of_nat n.
Proof. intros x n H. rewrite fr_to_bits_low by exact H. split; [apply low_length|]. change bits_number_le with bits_le_val. apply low_val. Qed.
Theorem C41_modulo : forall x y n, (n <= 377)%nat -> fr_to_bits x n = fr_to_bits y n <-> fqv x mod 2 ^ Z.of_nat n = fqv y mod 2 ^ Z.of_nat n.
Proof. intros x y n H. rewrite !fr_to_bits_low by exact H. apply low_eq. Qed.
Theorem C41_in_range : forall x y n, (n <= 377)%nat -> fqv x < 2 ^ Z.of_nat n -> fqv y < 2 ^ Z.of_nat n -> fr_to_bits x n = fr_to_bits y n -> x = y.
Proof.
  intros x y n H X Y E. apply C41_modulo in E; [|exact H]. pose proof (fqv_range x). pose proof (fqv_range y). rewrite !Z.mod_small in E by lia. apply fq_ext, E.
Qed.
(** every bit string of a width below 376 stands for several field elements *)
Theorem C41_not_determined_refuted : forall x n, (n < 376)%nat -> exists y, y <> x /\ fr_to_bits y n = fr_to_bits x n.
Proof. exact not_determined. Qed.

Section Epochs.
  Context (E1 E2 GT : grp) (e : E1 -> E2 -> GT) (gen1 : E1) (gen2 : E2).
  Context (of1 : apoint fq -> E1) (of2 : apoint fq2 -> E2) (to1 : E1 -> apoint fq) (to2 : E2 -> apoint fq2).
  Context (sqrt : fq -> option fq) (ped : bytes -> option fq) (compat pin debug : bool).
  Context (HP : Type) (helper_verify : HP -> list (list bool) -> bool).
  Notation circuit pin := (generate_constraints e gen1 gen2 of1 of2 to1 to2 sqrt ped compat pin debug helper_verify).
  Notation assignment linked w := (epoch_assignment e gen1 gen2 to2 (opens_to of2) (hashes_in of1 ped compat (constrained w)) (on_g1_point of1) linked).
  Notation update := (constrain_update gen2 of1 of2 to2 sqrt ped compat pin debug).
  Notation inputs_of := (public_inputs (coords_of to2) gsum gen2 blake2_out).
  Implicit Types (w : validator_set_update E1 E2 HP) (h : header E2) (b : epoch_block E2) (t : transition E1 E2).

  (** ** C37: the bits of a block in the circuit are its native encodings *)
  Theorem C37_block_bits : forall n b, good_block of2 to2 n b ->
    exists v, prover (to_bits of2 to2 pin (to_epoch_data b)) = Val (v, true) /\
      (v_bits v, v_extra v) = encode_inner_to_bits_cip22 (coords_of to2) gen2 b /\
      v_first v = encode_to_bits_cip22 (coords_of to2) gen2 b First /\ v_last v = encode_to_bits_cip22 (coords_of to2) gen2 b Last.
  Proof.
    intros n b G. eexists. split; [apply (to_bits_prover of2 to2 pin n), G|]. cbn [v_bits v_extra v_first v_last vars_of].
    split; [apply (header_signed gen2 of2 to2 n), G|]. split; [apply (header_first gen2 of2 to2 n), G|apply (header_closing gen2 of2 to2 n), G].
  Qed.
  (** the bytes the gadget hashes are those that the native encoder makes of the bits *)
  Theorem C37_bytes : forall bits, bits_be_to_bytes_le bits = Ok (map bits_number_le (pack_u8 bits)) /\ Forall u8_var (pack_u8 bits).
  Proof. intros bits. split; [apply pack_u8_native|apply pack_u8_var]. Qed.
  (** the honest prover's hash in the circuit is the native hash of the block *)
  Theorem C37_block_hash : forall n b H constrain, sqrt_spec qmul sqrt -> of1 None = gz -> negation_law of1 -> good_block of2 to2 n b ->
    block_hash gen2 of1 to2 sqrt ped compat b H ->
    exists v crh xof, prover (to_bits of2 to2 pin (to_epoch_data b)) = Val (v, true) /\
      prover (hash_bits_to_g1 of1 sqrt ped compat pin (v_bits v) (v_extra v) constrain) = Val ((H, crh, xof), true).
  Proof.
    intros n b H constrain Hs Z N G HH. destruct (hash_prover gen2 of1 of2 to2 sqrt ped compat pin n b H constrain Hs Z N G HH) as (crh & xof & R).
    eexists. exists crh, xof. split; [apply (to_bits_prover of2 to2 pin n), G|exact R].
  Qed.

  (** ** C44: what the circuit states *)
  Theorem C44_statement : forall n w inputs, gen2 <> gz -> sizes n w ->
    holds (circuit true w) inputs <->
    exists h0 headers last pairs s, length (headers ++ [last]) = length (vsu_epochs w) /\
      assignment (h_entropy h0 <> q0) w n inputs h0 headers last pairs s.
  Proof. intros n w inputs. apply pinned_circuit. Qed.
  (** with in-circuit hashing: the pairs the signature covers are, up to order, one for every real header, its
      hash and the sum of the keys of enough signers of the committee before it, and the fixed dummy pairs *)
  Theorem C44_quorums : forall n w inputs, gen2 <> gz -> sizes n w -> vsu_helper w = None -> holds (circuit true w) inputs ->
    exists h0 headers last real pairs s,
      length (headers ++ [last]) = length (vsu_epochs w) /\ Forall (well_formed (opens_to of2) n) (h0 :: real_headers (headers ++ [last])) /\
      covered gen2 (hashes_to of1 (native_ped ped) compat) (committee_of h0) (real_headers (headers ++ [last])) real /\
      Permutation pairs (real ++ repeat (gen1, gen2) (length (headers ++ [last]) - length real)) /\
      signed e gen2 s pairs /\ h_index last <> q0 /\ edges to2 inputs h0 last.
  Proof.
    intros n w inputs Hg SZ HN H. apply C44_statement with (n := n) in H; [|assumption..]. destruct H as (h0 & hs & last & pairs & s & L & W & C & N & _ & SG & D).
    destruct (chain_covered _ _ _ _ _ _ _ _ _ _ C) as (real & CV & PM). exists h0, hs, last, real, pairs, s. unfold constrained in CV. rewrite HN in CV.
    assert (LR : length real = length (real_headers (hs ++ [last]))).
    { clear -CV. revert CV. generalize (committee_of h0) as c. generalize (real_headers (hs ++ [last])) as l. intros l. revert real.
      induction l as [|h l IH]; intros [|[P K] real] c X; cbn [covered] in X; try contradiction; [reflexivity|]. cbn [length]. f_equal. destruct X as (_ & _ & X). eauto. }
    rewrite LR. split; [exact L|]. split; [constructor; [exact W|eapply chain_wf; exact C]|]. auto.
  Qed.
  Theorem C44_enough_signers : forall c bitmap signing, quorum gen2 c bitmap signing ->
    Z.of_nat (length (m_keys c)) - fqv (m_max c) <= Z.of_nat (length signing) /\ ~ In gen2 signing /\ (forall k, In k signing -> In k (m_keys c)).
  Proof.
    intros c bitmap signing Q. split; [eapply quorum_size; exact Q|]. destruct Q as (_ & S' & N & _). split; [exact N|].
    clear N. induction S' as [|k ks bs l S' IH|k ks bs l S' IH]; intros x X; cbn [In] in *; [exact X|destruct X as [->|X]; auto|auto].
  Qed.
  (** one update, on its own witnesses *)
  Theorem C44_update : forall n u c entropy_bit constrain v H crh xof apk, Z.of_nat n < p -> shape n u -> length (c_keys c) = n ->
    holds (update u c entropy_bit (Z.of_nat n) constrain) (v, (H, crh, xof), apk) ->
    exists bitmap signing, quorum gen2 (mk_committee (c_keys c) (c_index c) (c_entropy c) (c_max c)) bitmap signing /\ apk = sum signing.
  Proof.
    intros n u c eb cn v H crh xof apk Hn [L1 L2] L3 X. apply update_holds in X; [|assumption..]. destruct X as (h & bm & sg & _ & _ & _ & _ & _ & Q & ->). eauto.
  Qed.
  (** the public inputs of native blocks: the digests agree ... *)
  Theorem C44_digests : forall inputs h0 last (b0 bl : epoch_block g2_point), edges to2 inputs h0 last ->
    public_inputs g2_coords g2_sum g2_generator blake2_out b0 bl = Ok (Some (map fqv inputs)) ->
    exists agg first closing first' closing', sums_to to2 last agg /\
      bits_be_to_bytes_le (first_bits h0) = Ok first /\ enc_first b0 = Ok first' /\ blake2_out first = blake2_out first' /\
      bits_be_to_bytes_le (closing_bits last ++ agg) = Ok closing /\ enc_last bl = Ok closing' /\ blake2_out closing = blake2_out closing'.
  Proof.
    intros inputs h0 last b0 bl (agg & first & closing & SA & EF & EC & CM) HI.
    assert (exists f', enc_first b0 = Ok f') as (f' & Ef') by (eexists; apply bits_be_to_bytes_le_ok).
    assert (exists c', enc_last bl = Ok c') as (c' & Ec') by (eexists; apply bits_be_to_bytes_le_ok).
    pose proof (native_commits b0 bl inputs f' c' Ef' Ec' HI) as CM'. destruct (commits_inj _ _ _ _ _ CM CM') as [D1 D2].
    exists agg, first, closing, f', c'. auto 10.
  Qed.
  (** ... and equal encodings show the fields of the blocks *)
  Theorem C44_first_shown : forall n h (b : epoch_block g2_point), well_formed (opens_to of2) n h -> wf_block b -> bits_be_to_bytes_le (first_bits h) = enc_first b -> shows_first of2 h b.
  Proof. intros n h b. apply shows_first_ok. Qed.
  Theorem C44_last_shown : forall n h (b : epoch_block g2_point) agg, well_formed (opens_to of2) n h -> sums_to to2 h agg -> wf_block b ->
    bits_be_to_bytes_le (closing_bits h ++ agg) = enc_last b -> shows_last of2 h b /\ agg = enc_key (g2_sum (eb_keys b)).
  Proof. intros n h b agg W (c & _ & X). apply (shows_last_ok of2 n h b agg W), (encodes_length c agg X). Qed.

  (** ** C42 *)
  Theorem C42_update : forall n u c entropy_bit constrain v out apk, Z.of_nat n < p -> shape n u -> length (c_keys c) = n ->
    holds (update u c entropy_bit (Z.of_nat n) constrain) (v, out, apk) -> v_index v <> q0 -> v_index v = qadd (c_index c) q1.
  Proof.
    intros n u c eb cn v out apk Hn [L1 L2] L3 X N. apply update_holds in X; [|assumption..]. destruct X as (h & bm & sg & _ & -> & I & _). exact (I N).
  Qed.
  Theorem C42_progression : forall n w inputs, gen2 <> gz -> sizes n w -> holds (circuit true w) inputs ->
    exists h0 headers last pairs s, length (headers ++ [last]) = length (vsu_epochs w) /\ assignment (h_entropy h0 <> q0) w n inputs h0 headers last pairs s /\
      h_index last <> q0 /\
      (forall k h, nth_error (real_headers (headers ++ [last])) k = Some h -> h_index h = qadd (h_index h0) (fq_of (Z.of_nat (S k)))) /\
      h_index last = qadd (h_index h0) (fq_of (Z.of_nat (length (real_headers (headers ++ [last]))))).
  Proof.
    intros n w inputs Hg SZ H. apply C44_statement with (n := n) in H; [|assumption..]. destruct H as (h0 & hs & last & pairs & s & L & A). exists h0, hs, last, pairs, s.
    split; [exact L|]. split; [exact A|]. destruct A as (_ & C & N & _). split; [exact N|]. apply chain_counted in C.
    assert (X : forall k h, nth_error (real_headers (hs ++ [last])) k = Some h -> h_index h = qadd (h_index h0) (fq_of (Z.of_nat (S k)))) by (intros k h; apply counted_nth, C).
    split; [exact X|]. rewrite real_snoc in * by exact N. rewrite app_length, Nat.add_comm. cbn [length Nat.add]. apply X.
    rewrite nth_error_app2 by lia. rewrite Nat.sub_diag. reflexivity.
  Qed.
  (** dummies change nothing: without them there is a chain from and to the same committees, covering the same other pairs *)
  Theorem C42_dummies_ignored : forall (opens : E2 -> list bool -> Prop) (hashes : header E2 -> E1 -> Prop) linked n c hs pairs c',
    chain gen1 gen2 opens hashes linked n c hs pairs c' ->
    exists pairs', chain gen1 gen2 opens hashes linked n c (real_headers hs) pairs' c' /\
      Permutation pairs (pairs' ++ repeat (gen1, gen2) (length hs - length (real_headers hs))).
  Proof. intros opens hashes l n c hs pairs c'. apply chain_real_only. Qed.
  Theorem C42_dummy_carried : forall (opens : E2 -> list bool -> Prop) (hashes : header E2 -> E1 -> Prop) linked n c hs pairs c',
    Forall (fun h => h_index h = q0) hs -> chain gen1 gen2 opens hashes linked n c hs pairs c' -> c' = c /\ pairs = repeat (gen1, gen2) (length hs).
  Proof. intros opens hashes l n c hs pairs c' F C. split; [eapply dummies_keep; eassumption|eapply dummies_pairs; eassumption]. Qed.

  (** ** C43 *)
  Theorem C43_update : forall n u c entropy_bit constrain v out apk, Z.of_nat n < p -> shape n u -> length (c_keys c) = n ->
    holds (update u c entropy_bit (Z.of_nat n) constrain) (v, out, apk) -> entropy_bit = true -> v_index v <> q0 -> v_parent v = c_entropy c.
  Proof.
    intros n u c eb cn v out apk Hn [L1 L2] L3 X E N. apply update_holds in X; [|assumption..]. destruct X as (h & bm & sg & _ & -> & _ & P & _). exact (P N E).
  Qed.
  Theorem C43_linked : forall n w inputs, gen2 <> gz -> sizes n w -> holds (circuit true w) inputs ->
    exists h0 headers last pairs s, length (headers ++ [last]) = length (vsu_epochs w) /\ assignment (h_entropy h0 <> q0) w n inputs h0 headers last pairs s /\
      (h_entropy h0 <> q0 -> forall k h h', nth_error (h0 :: real_headers (headers ++ [last])) k = Some h ->
         nth_error (h0 :: real_headers (headers ++ [last])) (S k) = Some h' -> h_parent h' = h_entropy h).
  Proof.
    intros n w inputs Hg SZ H. apply C44_statement with (n := n) in H; [|assumption..]. destruct H as (h0 & hs & last & pairs & s & L & A). exists h0, hs, last, pairs, s.
    split; [exact L|]. split; [exact A|]. destruct A as (_ & C & _). intros X k h h' K K'. apply chain_linked in C; [|exact X].
    apply (linked_nth (h_parent h0) (h0 :: real_headers (hs ++ [last])) k); [split; [reflexivity|exact C]|assumption|assumption].
  Qed.
  (** the public inputs do not say whether links are enforced: the circuit accepts exactly the unlinked chains *)
  Theorem C43_links_optional : forall n w inputs, gen2 <> gz -> sizes n w ->
    holds (circuit true w) inputs <->
    exists h0 headers last pairs s, length (headers ++ [last]) = length (vsu_epochs w) /\ assignment False w n inputs h0 headers last pairs s.
  Proof. intros n w inputs Hg SZ. rewrite (C44_statement n w inputs Hg SZ). apply unlinked_statement. Qed.
  (** a chain of signed blocks with arbitrary parent entropies is accepted with the public inputs of its ends *)
  Theorem C43_unlinked_refuted : forall n b ts t w, linear_at e gen2 -> gen2 <> gz -> (forall s, on_g1_point of1 s) -> sqrt_spec qmul sqrt -> of1 None = gz -> negation_law of1 ->
    good_block of2 to2 n b -> honest e gen2 of2 to2 (block_hash gen2 of1 to2 sqrt ped compat) False n b (ts ++ [t]) ->
    (exists c, to2 (sum (eb_keys (t_block t))) = Some c) -> sizes n w -> vsu_helper w = None -> length (vsu_epochs w) = length (ts ++ [t]) ->
    exists inputs, inputs_of b (t_block t) = Ok (Some (map fqv inputs)) /\ holds (circuit pin w) inputs.
  Proof.
    intros n b ts t w B Hg HS Hs Z N G HO Ec SZ HN LW.
    apply (accepted e gen1 gen2 of1 of2 to1 to2 sqrt ped compat pin debug helper_verify (block_hash gen2 of1 to2 sqrt ped compat) n b (eb_max_non_signers b) ts t w); try assumption.
    - apply Z.mod_small. apply G.
    - destruct (max_range of2 to2 b n G) as [_ X]. destruct G as ((_ & _ & M) & _). lia.
    - intros b' H G' X. unfold constrained. rewrite HN. apply (header_hash gen2 of1 of2 to2 sqrt ped compat n); assumption.
    - destruct b. exact HO.
  Qed.

  (** ** C45: the threshold in force is not the one in the public inputs *)
  Theorem C45_threshold_refuted : forall n b maximum ts t w, linear_at e gen2 -> gen2 <> gz -> (forall s, on_g1_point of1 s) -> sqrt_spec qmul sqrt -> of1 None = gz -> negation_law of1 ->
    good_block of2 to2 n b -> 0 <= maximum < (p - 1) / 2 -> maximum mod 2 ^ 32 = eb_max_non_signers b ->
    honest e gen2 of2 to2 (block_hash gen2 of1 to2 sqrt ped compat) False n (set_max maximum b) (ts ++ [t]) ->
    (exists c, to2 (sum (eb_keys (t_block t))) = Some c) -> sizes n w -> vsu_helper w = None -> length (vsu_epochs w) = length (ts ++ [t]) ->
    exists inputs, inputs_of b (t_block t) = Ok (Some (map fqv inputs)) /\ holds (circuit pin w) inputs.
  Proof.
    intros n b M ts t w B Hg HS Hs Z N G R EM HO Ec SZ HN LW.
    apply (accepted e gen1 gen2 of1 of2 to1 to2 sqrt ped compat pin debug helper_verify (block_hash gen2 of1 to2 sqrt ped compat) n b M ts t w); try assumption.
    intros b' H G' X. unfold constrained. rewrite HN. apply (header_hash gen2 of1 of2 to2 sqrt ped compat n); assumption.
  Qed.
  (** below 2^32 it is *)
  Theorem C45_in_range : forall h (b : epoch_block g2_point), shows_first of2 h b -> fqv (h_max h) < 2 ^ 32 -> fqv (m_max (committee_of h)) = eb_max_non_signers b.
  Proof. intros h b (_ & M & _) R. cbn [committee_of m_max]. rewrite <- M. symmetry. apply Z.mod_small. pose proof (fqv_range (h_max h)). lia. Qed.

  (** ** C39: with a helper proof old signatures serve for new blocks *)
  Theorem C39_replay : forall n b ts t w, linear_at e gen2 -> gen2 <> gz -> (forall s, on_g1_point of1 s) ->
    good_block of2 to2 n b -> honest e gen2 of2 to2 (any_hash gen2 of1 to2 ped) False n b (ts ++ [t]) ->
    (exists c, to2 (sum (eb_keys (t_block t))) = Some c) -> sizes n w -> vsu_helper w <> None -> length (vsu_epochs w) = length (ts ++ [t]) ->
    exists inputs, inputs_of b (t_block t) = Ok (Some (map fqv inputs)) /\ holds (circuit pin w) inputs.
  Proof.
    intros n b ts t w B Hg HS G HO Ec SZ HN LW.
    apply (accepted e gen1 gen2 of1 of2 to1 to2 sqrt ped compat pin debug helper_verify (any_hash gen2 of1 to2 ped) n b (eb_max_non_signers b) ts t w); try assumption.
    - apply Z.mod_small. apply G.
    - destruct (max_range of2 to2 b n G) as [_ X]. destruct G as ((_ & _ & M) & _). lia.
    - intros b' H G' X. unfold constrained. destruct (vsu_helper w); [|congruence]. apply (header_any gen2 of1 of2 to2 sqrt ped compat n); assumption.
    - destruct b. exact HO.
  Qed.
  (** nothing depends on the helper proof or on the outcome of its verification *)
  Theorem C39_helper_ignored : forall verify' n w w' inputs, gen2 <> gz -> sizes n w -> sizes n w' -> length (vsu_epochs w) = length (vsu_epochs w') ->
    vsu_helper w <> None -> vsu_helper w' <> None ->
    holds (circuit pin w) inputs <-> holds (generate_constraints e gen1 gen2 of1 of2 to1 to2 sqrt ped compat pin debug verify' w') inputs.
  Proof.
    intros verify' n w w' inputs Hg SZ SZ' L N N'. rewrite !(circuit_holds e gen1 gen2 of1 of2 to1 to2 sqrt ped compat pin debug _ n _ _ Hg) by assumption.
    unfold constrained. destruct (vsu_helper w), (vsu_helper w'); try congruence. rewrite L. reflexivity.
  Qed.

  (** ** C56: keys *)
  (** with a free third coordinate every key encoding opens to every finite point, up to sign *)
  Theorem C56_any_key : forall x0 y0 Q, x0 <> q2_0 -> on_twist (Some Q) = true -> snd Q <> q2_0 -> forall k,
    holds (key_var of2 to2 false k) (of2 (Some Q), encode_coords (x0, y0)) \/
    holds (key_var of2 to2 false k) (of2 (g2_neg (Some Q)), encode_coords (x0, y0)).
  Proof. intros x0 y0 Q N HQ Y k. rewrite !key_var_holds. apply opens_free; assumption. Qed.
  Theorem C56_pinned_key : forall k P K, on_twist K = true -> holds (key_var of2 to2 true k) (P, enc_key K) -> same_key of2 P K.
  Proof. intros k P K HK H. apply key_var_holds, (opens_pinned of2) in H. apply opens_native; assumption. Qed.
  (** hence signatures by any chosen keys (up to sign) are accepted for the public inputs of any block *)
  Theorem C56_forgery_refuted : forall n b (Qs : list g2_point), linear_at e gen2 -> gen2 <> gz -> (forall s, on_g1_point of1 s) -> sqrt_spec qmul sqrt -> of1 None = gz -> negation_law of1 ->
    good_block of2 to2 n b -> Forall (fun K => to2 K <> None) (eb_keys b) ->
    length Qs = n -> Forall (fun Q => exists q, Q = Some q /\ snd q <> q2_0 /\ on_twist Q = true) Qs ->
    exists Qs', Forall2 (fun Q Q' => Q' = Q \/ Q' = g2_neg Q) Qs Qs' /\
      forall ts t w, honest e gen2 of2 to2 (block_hash gen2 of1 to2 sqrt ped compat) False n (set_keys b (map of2 Qs')) (ts ++ [t]) ->
        (exists c, to2 (sum (eb_keys (t_block t))) = Some c) -> sizes n w -> vsu_helper w = None -> length (vsu_epochs w) = length (ts ++ [t]) ->
        exists inputs, inputs_of b (t_block t) = Ok (Some (map fqv inputs)) /\ holds (circuit false w) inputs.
  Proof.
    intros n b Qs B Hg HS Hs Z N G FK L FQ.
    destruct (forged e gen1 gen2 of1 of2 to1 to2 sqrt ped compat debug helper_verify (block_hash gen2 of1 to2 sqrt ped compat) n b Qs B Hg HS G FK L FQ) as (Qs' & F2 & F).
    exists Qs'. split; [exact F2|]. intros ts t w HO Ec SZ HN LW. apply (F ts t w); try assumption.
    intros b' H G' X. unfold constrained. rewrite HN. apply (header_hash gen2 of1 of2 to2 sqrt ped compat n); assumption.
  Qed.
End Epochs.

Print Assumptions C41_low_bits.
Print Assumptions C41_modulo.
Print Assumptions C41_in_range.
Print Assumptions C41_not_determined_refuted.
Print Assumptions C37_block_bits.
Print Assumptions C37_bytes.
Print Assumptions C37_block_hash.
Print Assumptions C44_statement.
Print Assumptions C44_quorums.
Print Assumptions C44_enough_signers.
Print Assumptions C44_update.
Print Assumptions C44_digests.
Print Assumptions C44_first_shown.
Print Assumptions C44_last_shown.
Print Assumptions C42_update.
Print Assumptions C42_progression.
Print Assumptions C42_dummies_ignored.
Print Assumptions C42_dummy_carried.
Print Assumptions C43_update.
Print Assumptions C43_linked.
Print Assumptions C43_links_optional.
Print Assumptions C43_unlinked_refuted.
Print Assumptions C45_threshold_refuted.
Print Assumptions C45_in_range.
Print Assumptions C39_replay.
Print Assumptions C39_helper_ignored.
Print Assumptions C56_any_key.
Print Assumptions C56_pinned_key.
Print Assumptions C56_forgery_refuted.
