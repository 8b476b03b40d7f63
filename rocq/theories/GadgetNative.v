(** The gadgets against the native encodings and verification. *)
From Verif Require Import Base Constants Group Instances Field Curve BlsModel EncodingModel EncodingSpec EncodingProofs CodecSpec Circuit CircuitFacts GadgetModel GadgetSpec CubeFacts GadgetProofs.

Lemma g2_sign_encoding x y b : g2_equation (x, y) -> ~ midpoint (snd y) ->
  holds (g2_y_to_bit y) b <-> nth_error (enc_key (Some (x, y))) 754 = Some b.
Proof.
  intros H M. rewrite g2_y_to_bit_holds. pose proof (g2_no_midpoint _ H) as N. cbn [snd fst] in N.
  pose proof (proj2 (proj2 (enc_key_layout x y))) as ->. rewrite larger2_half.
  destruct b, (is_over_half y); intuition congruence.
Qed.

Definition free_x : fq2 := q2_of
 (211519423557036800621895351081366330790737139496906199746165142315931418447783403028770229506540907559175797729314,
  198728145372272222426368307224572997702893062531883196899925766522555017900857892122409644076163947870725820549139).
Definition free_y : fq2 := (fq_of 11, halfq).
Lemma free_on : g2_equation (free_x, free_y).
Proof. apply q2eqb_spec. vm_compute. reflexivity. Qed.
Lemma free_sign_point : exists Q, g2_equation Q /\ forall b, holds (g2_y_to_bit (snd Q)) b.
Proof.
  exists (free_x, free_y). split; [exact free_on|]. intros b. apply g2_y_to_bit_holds. right. left. exact halfq_val.
Qed.

Lemma bitmap_honest debug bits m v : Z.of_nat (length bits) < p -> positions v bits < 256 ->
  prover (enforce_maximum_occurrences_in_bitmap debug bits m v) = Val (tt, true) <->
  holds (enforce_maximum_occurrences_in_bitmap debug bits m v) tt.
Proof.
  intros L H. split; [apply prover_holds|]. intros X. apply bitmap_holds in X; [|exact L]. destruct X as [N X].
  rewrite bitmap_prover by assumption. f_equal. f_equal. lia.
Qed.
Lemma verify_honest {E1 E2 GT : grp} (e : E1 -> E2 -> GT) gen2 debug keys bits H sig m padding :
  gen2 <> gz -> Z.of_nat (length bits) < p -> positions false bits < 256 ->
  holds (GadgetModel.verify e gen2 debug keys bits H sig m padding) tt ->
  prover (GadgetModel.verify e gen2 debug keys bits H sig m padding) = Val (tt, true).
Proof.
  intros Hg L Hp X. apply verify_holds in X; [|assumption..]. destruct X as (N & B & l & Hl & Np & Nz & Eq).
  rewrite (verify_prover _ _ _ _ _ _ _ _ _ l) by assumption. f_equal. f_equal.
  apply geqb_spec in Eq. rewrite Eq, andb_true_r. lia.
Qed.

Section Native.
  Context (pr : pairing).
  Lemma gen2_nz : (gen2 : G2 pr) <> gz.
  Proof. intros E. apply (e_nondeg pr). rewrite E. apply e_0_r. Qed.
  Lemma native_iff (sig : G1 pr) keys hashes : length keys = length hashes ->
    outcome (batch_verify_hashes sig keys hashes) = Ok tt <->
    ga (e sig (gn gen2)) (sum (map (fun '(P, Q) => e P Q) (combine hashes keys))) = gz.
  Proof.
    intros L. unfold batch_verify_hashes. rewrite L, Nat.eqb_refl. cbn [negb]. unfold pairing_is_one, product_of_pairings.
    cbn [map]. rewrite gsum_cons, sum_gsum. rewrite <- geqb_spec. destruct (geqb _ gz); cbn; intuition congruence.
  Qed.
  Lemma batch_native keys hashes (sig : G1 pr) : length keys = length hashes ->
    holds (GadgetModel.batch_verify e gen2 keys hashes sig) tt <->
    ~ In gz keys /\ outcome (batch_verify_hashes sig keys hashes) = Ok tt.
  Proof. intros L. rewrite batch_holds by apply gen2_nz. rewrite native_iff by assumption. reflexivity. Qed.
  Lemma verify_native debug keys bits (H sig : G1 pr) m padding l :
    Z.of_nat (length bits) < p -> bits <> [] -> fqv m < (p - 1) / 2 ->
    signers keys bits l -> ~ In padding l -> sum l <> gz ->
    holds (GadgetModel.verify e gen2 debug keys bits H sig m padding) tt <->
    positions false bits <= fqv m /\ outcome (batch_verify_hashes sig [sum l] [H]) = Ok tt.
  Proof.
    intros L N Hm Hl Np Nz. change ((p - 1) / 2) with half in Hm. rewrite verify_holds by (exact gen2_nz || exact L). rewrite native_iff by reflexivity.
    cbn [combine map]. cbn [sum fold_right]. rewrite ga_0_r. split.
    - intros (_ & B & l' & Hl' & _ & _ & Eq). rewrite (signers_fun _ _ _ _ Hl Hl'). split; [lia|exact Eq].
    - intros (B & Eq). split; [exact N|]. split; [lia|]. exists l. auto.
  Qed.
End Native.

Lemma uneven_accepted : exists (pr : pairing) keys hashes (sig : G1 pr), length keys <> length hashes /\
  holds (GadgetModel.batch_verify e gen2 keys hashes sig) tt /\
  outcome (batch_verify_hashes sig keys hashes) = Err UnevenNumKeysMessages.
Proof.
  exists zr_pairing, [], [gen1], gz. split; [discriminate|]. split; [|reflexivity].
  apply batch_holds; [exact (gen2_nz _)|]. split; [intros []|]. cbn [combine map sum fold_right]. rewrite ga_0_r. apply e_0_l.
Qed.
Lemma zero_key_rejected : exists (pr : pairing) keys hashes (sig : G1 pr),
  outcome (batch_verify_hashes sig keys hashes) = Ok tt /\ ~ holds (GadgetModel.batch_verify e gen2 keys hashes sig) tt.
Proof.
  exists zr_pairing, [gz], [gen1], gz. split.
  - apply native_iff; [reflexivity|]. cbn [combine map sum fold_right]. rewrite e_0_r, ga_0_r, ga_0_r. apply e_0_l.
  - intros H. apply batch_holds in H; [|exact (gen2_nz _)]. destruct H as [N _]. apply N. left. reflexivity.
Qed.
