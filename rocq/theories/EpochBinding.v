(** What the public inputs say about the first and the last header. *)
From Coq Require Import Field Permutation.
From Verif Require Import Base Constants Group Field Curve BlsModel BitsModel BitsProofs EncodingModel EncodingSpec EncodingProofs BatchProofs Blake2 HasherModel HasherSpec HasherProofs PointModel
  HashCurveModel HashCurveSpec PointProofs HashCurveProofs CodecSpec Circuit CircuitFacts GadgetModel GadgetSpec CubeFacts GadgetProofs
  HashGadgetModel HashGadgetSpec HashGadgetProofs HashGadgetNative EpochCircuitModel EpochSpec EpochCircuitSpec EpochProofs EpochCircuitProofs EpochChainProofs ProverModel ProverSpec ProverProofs.
Local Opaque p half.

Lemma encodes_length c bits : encodes c bits -> length bits = 755%nat.
Proof.
  intros [->|(_ & s & ->)]; [apply encode_coords_length|]. rewrite app_length, firstn_length, encode_coords_length. reflexivity.
Qed.
Lemma some_on x y K : on_twist (Some (x, y)) = true -> on_twist K = true -> fst (g2_coords K) = x -> exists y', K = Some (x, y').
Proof.
  intros H HK E. destruct K as [[x' y']|]; cbn [g2_coords fst infinity_coords] in E; subst; [eauto|]. rewrite x_zero_not_on_twist in H. discriminate H.
Qed.
Section Binding.
  Context {E2 : grp} (of2 : apoint fq2 -> E2).
  Lemma opens_native (P : E2) K : on_twist K = true -> opens_to of2 P (enc_key K) -> same_key of2 P K.
  Proof.
    intros HK (Q & HQ & [E|(U & s & E)] & ->).
    - apply enc_key_inj in E; [|exact HK|exact HQ]. subst. left. reflexivity.
    - unfold enc_key, encode_public_key in E. destruct (g2_coords K) as [x y] eqn:EK, (g2_coords Q) as [x' y'] eqn:EQ. cbn [snd] in U.
      assert (L : length (fq_bits (fst x') ++ fq_bits (snd x')) = 754%nat) by (rewrite app_length, !fq_bits_length; reflexivity).
      rewrite !encode_coords_eq, !app_assoc in E. rewrite firstn_app, L, Nat.sub_diag in E. rewrite firstn_O, app_nil_r, firstn_all2 in E by (rewrite L; lia).
      apply app_inj_len in E as [E _]; [|rewrite !app_length, !fq_bits_length; reflexivity].
      apply app_inj_len in E as [E1 E2']; [|rewrite !fq_bits_length; reflexivity]. apply fq_bits_inj in E1, E2'.
      assert (x = x') as <- by (destruct x, x'; cbn [fst snd] in *; congruence).
      destruct K as [[xk yk]|].
      + cbn [g2_coords] in EK. injection EK as -> ->. destruct (some_on x y Q HK HQ) as (y2 & ->); [rewrite EQ; reflexivity|]. cbn [g2_coords] in EQ. injection EQ as ->.
        apply on_twist_spec in HK, HQ. rewrite <- HK in HQ. apply q2_sqrt_unique in HQ as [-> | ->]; [left; reflexivity|]. right. split; [exact U|reflexivity].
      + cbn [g2_coords infinity_coords] in EK. injection EK as <- <-. destruct Q as [[x2 y2]|]; [|left; reflexivity]. cbn [g2_coords] in EQ. injection EQ as -> ->.
        rewrite x_zero_not_on_twist in HQ. discriminate HQ.
  Qed.
  Lemma keys_native (ks : list (E2 * list bool)) Ks : Forall (fun k => opens_to of2 (fst k) (snd k)) ks -> Forall (fun K => on_twist K = true) Ks ->
    concat (map snd ks) = flat_map enc_key Ks -> Forall2 (same_key of2) (map fst ks) Ks.
  Proof.
    intros F. revert Ks. induction F as [|[P b] ks Ho F IH]; intros Ks HK E.
    - destruct Ks as [|K Ks]; [constructor|]. apply (f_equal (@length bool)) in E. cbn [flat_map map concat] in E. rewrite app_length, enc_key_length in E. exact (False_rect _ (O_S _ E)).
    - cbn [fst snd] in Ho. assert (L : length b = 755%nat) by (destruct Ho as (Q & _ & Hb & _); eapply encodes_length; exact Hb). destruct Ks as [|K Ks].
      + apply (f_equal (@length bool)) in E. cbn [flat_map map concat snd] in E. rewrite app_length, L in E. exact (False_rect _ (O_S _ (eq_sym E))).
      + cbn [flat_map map concat snd] in E. apply app_inj_len in E as [-> E]; [|rewrite L, enc_key_length; reflexivity]. inversion HK; subst.
        cbn [map fst]. constructor; [apply opens_native; assumption|apply IH; assumption].
  Qed.
  Lemma keys_bits_len n (h : header E2) : well_formed (opens_to of2) n h -> length (key_bits h) = (755 * n)%nat.
  Proof.
    intros [<- F]. unfold key_bits. induction F as [|[P b] ks (Q & _ & Hb & _) F IH]; [reflexivity|]. cbn [map concat snd length]. rewrite app_length, IH. cbn [snd] in Hb.
    rewrite (encodes_length _ _ Hb). lia.
  Qed.
  Lemma shows_from n (h : header E2) b (en : fq) t : well_formed (opens_to of2) n h -> wf_block b ->
    low 16 (h_index h) ++ low 128 en ++ low 32 (h_max h) ++ key_bits h = encode_to_bits_cip22 g2_coords g2_generator b t ->
    shows of2 en (match t with First => eb_parent_entropy b | Last => eb_epoch_entropy b end) h b.
  Proof.
    intros W ((I & R & M) & E1 & E2' & K) H. unfold encode_to_bits_cip22 in H. rewrite encode_keys_padded_eq in H.
    apply app_inj_len in H as [H1 H]; [|rewrite low_length, encode_u16_length; reflexivity].
    apply app_inj_len in H as [H2 H]; [|rewrite low_length; destruct t; rewrite encode_entropy_length by assumption; reflexivity].
    apply app_inj_len in H as [H3 H]; [|rewrite low_length, encode_u32_length; reflexivity]. split; [|split; [|split]].
    - apply (f_equal bits_le_val) in H1. rewrite low_val, encode_u16_val in H1. rewrite (Z.mod_small (eb_index b)) in H1 by exact I. exact H1.
    - apply (f_equal bits_le_val) in H3. rewrite low_val, encode_u32_val in H3. rewrite (Z.mod_small (eb_max_non_signers b)) in H3 by exact M. exact H3.
    - apply (f_equal bits_le_val) in H2. rewrite low_val in H2. etransitivity; [exact H2|].
      assert (X : forall o, wf_entropy o -> bits_le_val (encode_entropy o) = bytes_number (entropy_value o)).
      { intros o Ho. rewrite encode_entropy_value, flat_bits_val by (apply entropy_value_wf; exact Ho). reflexivity. }
      destruct t; apply X; assumption.
    - apply keys_native; [apply W|apply padded_on; exact K|exact H].
  Qed.
  Lemma shows_first_ok n (h : header E2) b : well_formed (opens_to of2) n h -> wf_block b -> bits_be_to_bytes_le (first_bits h) = enc_first b -> shows_first of2 h b.
  Proof.
    intros W Wb H. apply (shows_from n h b (h_parent h) First W Wb). unfold enc_first, encode_first_epoch_to_bytes_cip22 in H.
    eapply bytes_of_bits_inj in H; [exact H| |apply first_bits_len; exact Wb].
    unfold first_bits. rewrite !app_length, !low_length, (keys_bits_len n h W). cbn. reflexivity.
  Qed.
  Lemma shows_last_ok n (h : header E2) b agg : well_formed (opens_to of2) n h -> length agg = 755%nat -> wf_block b ->
    bits_be_to_bytes_le (closing_bits h ++ agg) = enc_last b -> shows_last of2 h b /\ agg = enc_key (g2_sum (eb_keys b)).
  Proof.
    intros W La Wb H. unfold enc_last, encode_last_epoch_to_bytes_with_aggregated_pk_cip22 in H.
    assert (Lc : length (closing_bits h) = (176 + 755 * n)%nat) by (unfold closing_bits; rewrite !app_length, !low_length, (keys_bits_len n h W); cbn; reflexivity).
    eapply (bytes_of_bits_inj 176 (S n)) in H; [|rewrite app_length, Lc, La; lia|apply last_bits_len; exact Wb].
    assert (L : n = length (padded_keys b)). { apply (f_equal (@length bool)) in H. rewrite app_length, Lc, La, last_bits_len in H by exact Wb. lia. }
    unfold encode_last_to_bits_with_agg in H. apply app_inj_len in H as [H1 H2]; [|rewrite Lc, first_bits_len by exact Wb; lia].
    split; [|exact H2]. apply (shows_from n h b (h_entropy h) Last W Wb). exact H1.
  Qed.
End Binding.

(** the digests in the public inputs *)
Lemma commits_multipack inputs first last : commits inputs first last <-> holds (multipack (digest_bits first last) CAPACITY) inputs.
Proof.
  rewrite multipack_holds by (unfold CAPACITY; lia). rewrite two_chunks by apply digest_bits_len512. unfold commits.
  assert (L1 : length (firstn 376 (digest_bits first last)) = 376%nat) by (rewrite firstn_length, digest_bits_len512; reflexivity).
  assert (L2 : length (skipn 376 (digest_bits first last)) = 136%nat) by (rewrite skipn_length, digest_bits_len512; reflexivity).
  rewrite !bits_number_be_eq. set (c1 := firstn 376 _) in *. set (c2 := skipn 376 _) in *. clearbody c1 c2. split.
  - intros (a & b & -> & A & B). constructor; [rewrite L1; exact A|]. constructor; [rewrite L2; exact B|]. constructor.
  - intros X. inversion X as [|? a ? ? A X' E1 E2]; subst. inversion X' as [|? b ? ? B X'' E1 E2]; subst. inversion X''; subst. rewrite L1 in A. rewrite L2 in B. eauto.
Qed.
Lemma commits_inj inputs a b a' b' : commits inputs a b -> commits inputs a' b' -> blake2_out a = blake2_out a' /\ blake2_out b = blake2_out b'.
Proof.
  intros H H'. apply commits_multipack in H, H'. assert (E : digest_bits a b = digest_bits a' b').
  { eapply pack_determines; [|rewrite !digest_bits_len512; reflexivity|exact H|exact H']. unfold CAPACITY. lia. }
  rewrite !digest_native in E. apply app_inj_len in E as [E1 E2]; [|rewrite !digest_bits_len by apply blake2_out_length; reflexivity].
  split; apply digest_bits_inj; try apply blake2_out_length; assumption.
Qed.
Lemma native_commits b0 bl inputs first last : enc_first b0 = Ok first -> enc_last bl = Ok last ->
  public_inputs g2_coords g2_sum g2_generator blake2_out b0 bl = Ok (Some (map fqv inputs)) -> commits inputs first last.
Proof.
  intros F L H. apply commits_multipack. unfold public_inputs, hash_first_last_epoch_block, blake2_first_epoch, blake2_last_epoch in H.
  change (encode_first_epoch_to_bytes_cip22 g2_coords g2_generator b0) with (enc_first b0) in H.
  change (encode_last_epoch_to_bytes_with_aggregated_pk_cip22 g2_coords g2_sum g2_generator bl) with (enc_last bl) in H. rewrite F, L in H. cbn [rbind] in H.
  unfold EncodingModel.hash_to_bits in H. rewrite <- digest_native in H. apply ok_inj in H.
  eapply pack_satisfied; [|exact H|reflexivity]. unfold CAPACITY. lia.
Qed.
