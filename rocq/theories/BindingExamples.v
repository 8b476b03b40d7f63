(** C78 on a concrete case.  With bases that are all zero, two epoch blocks that differ in their keys have one digest: the signature by the private
    key 7 of either is accepted for the other, and the relation between the bases is there. *)
From Verif Require Import Base Constants Group Field Curve BlsModel PointModel EncodingModel EncodingSpec EncodingProofs EncodingExamples PropEncoding HasherModel HashCurveModel HashCurveSpec HashCurveProofs
  PropHashCurve HashCurveExamples CodecModel CodecSpec PropCodec FfiModel CurveGroups PointCert CurveCount CurveOrder OrderSpec OrderProofs TwistSpec TwistProofs PropTwist CurvesExamples EpochExamples
  RealSpec RealModel RealProofs PropReal RealExamples Edwards PedersenModel PedersenSpec PedersenUse PropPedersen PedersenExamples BindingData BindingSpec BindingProofs PropBinding.

Definition flat : list ed_grp := repeat (gz : ed_grp) 560.
Definition flat_gens : list (list (fq * fq)) := repeat (segment_generators WINDOW_SIZE (edp (gz : ed_grp))) 560.
Lemma flat_windows : Forall2 window_of flat flat_gens. Proof. apply windows_repeat. Qed.
Lemma flat_length : length flat = 560%nat. Proof. apply repeat_length. Qed.
Lemma flat_combination n : forall ks, combination ks (repeat (gz : ed_grp) n) = gz.
Proof. induction n as [|n IH]; intros [|k ks]; cbn [repeat combination]; try reflexivity. rewrite smul_gz, IH. apply ga_0_l. Qed.
Lemma flat_digest m : is_bytes m = true -> Z.of_nat (length m) <= 19530 -> composite_crh flat_gens m = Ok (repeat 0 48).
Proof.
  intros B L. apply (C61_value flat flat_gens m (repeat 0 48) flat_windows flat_length B). split; [exact L|]. split; [reflexivity|]. split; [reflexivity|].
  unfold flat. rewrite flat_combination. reflexivity.
Qed.
Definition block_a := ex_block 6 [g2_generator].
Definition block_b := ex_block 6 [g2_neg g2_generator].
Lemma blocks_wf : wf_block block_a /\ wf_block block_b.
Proof.
  split; (split; [repeat split; cbn; lia|]; split; [split; [reflexivity|cbn; lia]|]; split; [exact I|]); cbn [block_a block_b ex_block eb_keys forallb]; rewrite andb_true_r; [apply generator_on|apply ex_C18].
Qed.
Definition bind_pt := (fq_of bind_x, fq_of bind_y).
Definition bind_hash : g1_curve := smul G1_COFACTOR (g1_of (Some bind_pt)).
Lemma bind_hash_not_0 : bind_hash <> gz.
Proof.
  assert (C : multiple_by bind_cert G1_COFACTOR bind_x bind_y bind_cleared_x bind_cleared_y = true) by (vm_compute; reflexivity).
  apply multiple_ok in C as (_ & O & E). unfold bind_hash. change (Some bind_pt) with (pt bind_x bind_y). rewrite E. apply pt_not_0, O.
Qed.
Definition bind_extra : bytes := [0; 0; 0; 128; 192; 0; 96].
Lemma bind_encoded keys : exists m, enc_signed (ex_block 6 keys) = Ok (m, bind_extra).
Proof. rewrite enc_signed_eq. eexists. apply (f_equal (fun x => Ok (_, x))). vm_compute. reflexivity. Qed.
Lemma bind_hashed m : is_bytes m = true -> Z.of_nat (length m) <= 19530 ->
  hashed true (composite_crh flat_gens) fq_sqrt true true SIG_DOMAIN m bind_extra (g1_to bind_hash).
Proof.
  intros B L. exists bind_hash, 0. split; [reflexivity|]. apply C25_g1_cip22_least_counter; [apply composite_bytes, ped_is_bytes|exact fq_sqrt_ok|].
  exists (repeat 0 48). split; [exact (flat_digest m B L)|]. split; [lia|]. split; [|intros c' C; lia].
  assert (exists out, direct_xof SIG_DOMAIN ([0] ++ bind_extra ++ repeat 0 48) 64 = Ok out /\ (48 <= length out)%nat /\ denotes_g1 377 (number (firstn 48 out)) (Some bind_pt)) as (out & H & Lo & D).
  { eexists. split; [vm_compute; reflexivity|]. split; [apply Nat.leb_le; vm_compute; reflexivity|]. unfold bind_pt. denotes_solve. }
  exists out. split; [exact H|]. split; [exact Lo|]. exists (Some bind_pt). split; [exact D|]. split; [reflexivity|exact bind_hash_not_0].
Qed.
Definition bind_sig : bytes := signature_serialize (g1_times 7 (g1_to bind_hash)).
Notation verify78 := (c_verify g1_curve e70 e70_bilinear true (composite_crh flat_gens) fq_sqrt fq2_sqrt).
Lemma flat_bytes m out : composite_crh flat_gens m = Ok out -> is_bytes out = true. Proof. exact (ped_is_bytes flat_gens m out). Qed.
Lemma bind_accepts m : is_bytes m = true -> Z.of_nat (length m) <= 19530 -> verify78 (pk_of 7 ++ []) (bind_sig ++ []) m bind_extra true true = Some true.
Proof.
  intros B L. refine (C70_round_trip _ _ _ _ _ _ _ flat_bytes fq_sqrt_ok fq2_sqrt_ok (key_of 7) _ _ m bind_extra true true [] [] eq_refl eq_refl eq_refl (public70 7 ltac:(lia)) _).
  apply (C70_sign _ _ _ _ _ _ flat_bytes fq_sqrt_ok); [reflexivity|]. rewrite key_number. exists (g1_to bind_hash).
  split; [cbn [key_of repeat length]; lia|]. split; [reflexivity|]. split; [exact (bind_hashed m B L)|reflexivity].
Qed.
Lemma short_bytes b m x : wf_block b -> (length (padded_keys b) <= 2)%nat -> enc_signed b = Ok (m, x) -> is_bytes m = true /\ Z.of_nat (length m) <= 19530.
Proof.
  intros W K E. split; [exact (proj1 (signed_bytes b m x E))|]. destruct (C19_lengths b W) as (_ & _ & _ & (m' & x' & E' & Lm & _)).
  assert (m' = m) as -> by congruence. rewrite Lm. unfold byte_len. apply Z.div_le_upper_bound; lia.
Qed.
Example ex_C78_blocks : exists m m', enc_signed block_a = Ok (m, bind_extra) /\ enc_signed block_b = Ok (m', bind_extra) /\ m <> m' /\
  padded_keys block_a <> padded_keys block_b /\
  verify78 (pk_of 7 ++ []) (bind_sig ++ []) m bind_extra true true = Some true /\ verify78 (pk_of 7 ++ []) (bind_sig ++ []) m' bind_extra true true = Some true /\
  linked flat m m'.
Proof.
  destruct blocks_wf as (Wa & Wb). destruct (bind_encoded [g2_generator]) as (m & E). destruct (bind_encoded [g2_neg g2_generator]) as (m' & E').
  assert (P : padded_keys block_a <> padded_keys block_b) by (intros K; apply (f_equal (hd None)) in K; exact (proj2 (proj2 ex_C18) K)).
  assert (N : m <> m').
  { intros <-. apply P. apply (C19_signed_message_injective block_a block_b Wa Wb). exact (eq_trans E (eq_sym E')). }
  destruct (short_bytes block_a m bind_extra Wa ltac:(apply Nat.leb_le; reflexivity) E) as (B & L). destruct (short_bytes block_b m' bind_extra Wb ltac:(apply Nat.leb_le; reflexivity) E') as (B' & L').
  exists m, m'. split; [exact E|]. split; [exact E'|]. split; [exact N|]. split; [exact P|]. split; [exact (bind_accepts m B L)|]. split; [exact (bind_accepts m' B' L')|].
  exact (C78_digests flat flat_gens m m' (repeat 0 48) flat_windows flat_length B B' N (flat_digest m B L) (flat_digest m' B' L')).
Qed.
(** The key of the example is not the point at infinity. *)
Example ex_C78_key : is_bytes (pk_of 7) = true /\ ~ wire_g2 (number (firstn 96 (pk_of 7))) None.
Proof. split; [apply pk_bytes|apply pk_finite; lia]. Qed.
(** The proof of possession of C70, accepted for its own message. *)
Example ex_C78_pop : exists sig, c_verify_pop g1_curve e70 e70_bilinear true fq_sqrt fq2_sqrt (pk_of 7 ++ [1]) (sig ++ [2]) [1] = Some true.
Proof. destruct pop70 as (sig & _ & V). exists sig. exact V. Qed.
(** What is one content and what is not. *)
Example ex_C78_content : same_content false [3] [1; 2] [2; 3] [1] /\ ~ same_content true [3] [1; 2] [2; 3] [1] /\ ~ same_content false [3] [1; 2] [3] [2; 1].
Proof. split; [reflexivity|]. split; [intros (K & _); discriminate K|intros K; discriminate K]. Qed.
