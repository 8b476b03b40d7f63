(** C72 on the two keys and the hash of C70's examples. *)
From Coq Require Import Permutation.
From Verif Require Import Base Constants Group Field Curve BlsModel BlsSpec BlsProofs PointModel EncodingModel EncodingProofs HasherModel HashCurveModel HashCurveSpec HashCurveProofs CodecModel CodecSpec CodecProofs PropCodec
  FfiModel FfiSpec FfiProofs PropFfi FfiRestProofs CurveGroups CurveOrder OrderSpec OrderProofs TwistSpec TwistProofs CurvesExamples HashGadgetNative HashGadgetExamples EpochExamples LightExamples SetupExamples RealSpec RealModel RealProofs PropReal RealExamples RealBatchModel RealBatchSpec RealBatchProofs PropRealBatch.

Notation batch72 := (c_batch_verify g1_curve e70 e70_bilinear true ped70 fq_sqrt fq2_sqrt).
Notation strict72 := (c_batch_strict g1_curve e70 e70_bilinear true ped70 fq_sqrt fq2_sqrt).
Notation hashed72 := (hashed true ped70 fq_sqrt true true SIG_DOMAIN).
Lemma sig_first k : firstn 48 (sig_of k) = sig_of k.
Proof. apply firstn_all2. unfold sig_of. rewrite (proj1 (proj1 (proj2 C30_sizes) (g1_times k (g1_to H6)))). apply Nat.le_refl. Qed.
Lemma sig_reads m x k : 0 <= k < 256 -> hashed72 m x (g1_to H6) -> signature_deserialize fq_sqrt g1_test (sig_of k) = Ok (g1_times k (g1_to H6)).
Proof.
  intros Hk H. destruct (hashed_in true ped70 fq_sqrt ped70_bytes fq_sqrt_ok _ _ _ _ _ _ H) as (I & _). apply deserialize_iff. unfold sig_of. rewrite <- (app_nil_r (signature_serialize _)).
  refine (read_signature_ser fq_sqrt fq_sqrt_ok _ [] _ eq_refl). destruct (in_g1_times k _ (proj1 Hk) I) as (s & <-). apply to1_in.
Qed.
Lemma sig_differ m x : hashed72 m x (g1_to H6) -> firstn 48 (sig_of 7) <> firstn 48 (sig_of 9).
Proof.
  intros H E. rewrite !sig_first in E. pose proof (sig_reads m x 7 ltac:(lia) H) as R. rewrite E, (sig_reads m x 9 ltac:(lia) H) in R.
  destruct (hashed_in true ped70 fq_sqrt ped70_bytes fq_sqrt_ok _ _ _ _ _ _ H) as (I & N). destruct (in_g1_of _ I) as (Q & K & EQ). rewrite EQ in R, N.
  assert (E2 : g1_times 9 (g1_to Q) = g1_times 7 (g1_to Q)) by congruence. rewrite !g1_times_to in E2 by lia. apply g1_to_eq in E2. assert (NQ : Q <> gz) by (intros ->; apply N; reflexivity).
  apply (smul_inj_scalar Q 9 7 K NQ) in E2. discriminate E2.
Qed.
Example batch72_both : exists m x, batch72 [Item (pk_of 7) (sig_of 7) m x; Item (pk_of 9) (sig_of 9) m x] true true = Some true.
Proof.
  destruct hashed70 as (m & x & H). exists m, x. apply (C72_batch_complete _ _ _ _ _ _ _ ped70_bytes fq_sqrt_ok fq2_sqrt_ok); [reflexivity|].
  constructor; [split; [apply pk_bytes|split; [apply RealExamples.sig_bytes|exact (accepts70_exact m x 7 ltac:(lia) H)]]|].
  constructor; [split; [apply pk_bytes|split; [apply RealExamples.sig_bytes|exact (accepts70_exact m x 9 ltac:(lia) H)]]|constructor].
Qed.
Example batch72_swapped : exists m x, batch72 [Item (pk_of 7) (sig_of 9) m x; Item (pk_of 9) (sig_of 7) m x] true true = Some true /\ verify70 (pk_of 7) (sig_of 9) m x true true <> Some true.
Proof.
  destruct hashed70 as (m & x & H). exists m, x. apply (C72_batch_screens_only _ _ _ _ _ _ _ ped70_bytes fq_sqrt_ok fq2_sqrt_ok); [apply pk_bytes|apply RealExamples.sig_bytes|apply pk_bytes|apply RealExamples.sig_bytes|apply pk_finite; lia|exact (sig_differ m x H)| |].
  - exact (accepts70_exact m x 7 ltac:(lia) H).
  - exact (accepts70_exact m x 9 ltac:(lia) H).
Qed.
Definition draw72 : list bytes := [3 :: repeat 0 16; repeat 255 17].
Lemma draw72_ok : strict_draw 2 draw72.
Proof. split; [reflexivity|]. constructor; [split; reflexivity|constructor; [split; reflexivity|constructor]]. Qed.
Example strict72_both : exists m x, strict72 [(Lot m x [pk_of 7; pk_of 9] [sig_of 7; sig_of 9], draw72); (Lot m x [pk_of 9] [sig_of 9], [repeat 1 16])] true true = Some (true, [true; true]).
Proof.
  destruct hashed70 as (m & x & H). exists m, x. apply (C72_strict_complete _ _ _ _ _ _ _ ped70_bytes fq_sqrt_ok fq2_sqrt_ok).
  assert (A7 := accepts70_exact m x 7 ltac:(lia) H). assert (A9 := accepts70_exact m x 9 ltac:(lia) H).
  constructor; [|constructor; [|constructor]]; (split; [intros K; discriminate K|]); cbn [fst snd l_keys l_sigs l_msg l_extra forallb pairs]; rewrite !pk_bytes, !RealExamples.sig_bytes; (split; [reflexivity|]); (split; [reflexivity|]); unfold pairs; cbn [l_keys l_sigs combine length]; (split; [intros K; discriminate K|]).
  - split; [exact draw72_ok|]. constructor; [exact A7|constructor; [exact A9|constructor]].
  - split; [split; [reflexivity|constructor; [split; reflexivity|constructor]]|]. constructor; [exact A9|constructor].
Qed.
Lemma lincomb_zeros {G : grp} (P Q : G) : lincomb [0; 0] [P; Q] = gz.
Proof. cbn [lincomb smul]. rewrite !ga_0_r. reflexivity. Qed.
Lemma zeros_valid {pr : pairing} (H : G1 pr) (P Q : G2 pr) (S T : G1 pr) : signature_on H (lincomb [0; 0] [P; Q]) (lincomb [0; 0] [S; T]).
Proof. rewrite !lincomb_zeros. exists 0. split; reflexivity. Qed.
(** The swapped signatures pass when the random bytes are all zero. *)
Definition swapped72 m x : lot := Lot m x [pk_of 7; pk_of 9] [sig_of 9; sig_of 7].
Example strict72_swapped : exists m x, ~ Forall (fun '(pk, sig) => verify70 pk sig m x true true = Some true) (pairs (swapped72 m x)) /\
  strict_draw 2 [repeat 0 17; repeat 0 17] /\ strict72 [(swapped72 m x, [repeat 0 17; repeat 0 17])] true true = Some (true, [true]).
Proof.
  destruct hashed70 as (m & x & H). exists m, x. split; [|split].
  - intros F. apply Forall_inv in F. pose proof (C70_unique_signature _ _ _ _ _ _ _ ped70_bytes fq_sqrt_ok fq2_sqrt_ok _ _ _ _ _ _ _ (pk_bytes 7) (RealExamples.sig_bytes 7) (RealExamples.sig_bytes 9) (pk_finite 7 ltac:(lia)) (accepts70_exact m x 7 ltac:(lia) H) F) as E.
    exact (sig_differ m x H E).
  - split; [reflexivity|]. constructor; [split; reflexivity|constructor; [split; reflexivity|constructor]].
  - apply c_strict_iff.
    set (b := BMsg (pr := real_pairing g1_curve e70 e70_bilinear) m x (map of2 [g2_times 7 g2_generator; g2_times 9 g2_generator]) (map of1 [g1_times 9 (g1_to H6); g1_times 7 (g1_to H6)])).
    exists [(b, [repeat 0 17; repeat 0 17])]. split.
    + apply read_lots_ok. constructor; [split; [|reflexivity]|constructor]. apply read_lot_ok. eexists _, _. split; [|split; [|reflexivity]]; cbn [swapped72 fst l_keys l_sigs].
      * constructor; [apply deserialize_iff, pk_reads; lia|constructor; [apply deserialize_iff, pk_reads; lia|constructor]].
      * constructor; [apply deserialize_iff, (sig_reads m x); [lia|exact H]|constructor; [apply deserialize_iff, (sig_reads m x); [lia|exact H]|constructor]].
    + assert (HC : cip22_g1 g1_curve e70 e70_bilinear true ped70 fq_sqrt SIG_DOMAIN m x = Ok (of1 (g1_to H6))).
      { apply (hash_value g1_curve e70 e70_bilinear true ped70 fq_sqrt ped70_bytes fq_sqrt_ok true true _ SIG_DOMAIN m x _ (sel_cip22 _ _ _)). rewrite to1_of1; [exact H|]. apply (hashed_in true ped70 fq_sqrt ped70_bytes fq_sqrt_ok _ _ _ _ _ _ H). }
      destruct (C51_slots _ _ (composite_g1 g1_curve e70 e70_bilinear true ped70 fq_sqrt) _ true true _ [(b, [repeat 0 17; repeat 0 17])] (sel_cip22 (direct_g1 g1_curve e70 e70_bilinear true fq_sqrt) _ (cip22_g1 g1_curve e70 e70_bilinear true ped70 fq_sqrt))) as (slots & E & F).
      { constructor; [|constructor]. split; [intros K; discriminate K|]. split; [|unfold b; cbn [fst bm_data bm_extra]; intros K; rewrite HC in K; discriminate K].
        split; [reflexivity|]. constructor; [split; reflexivity|constructor; [split; reflexivity|constructor]]. }
      inversion F as [|? s ? sl F1 F2]; subst. inversion F2; subst. assert (s = true) as ->.
      { apply F1. exists (of1 (g1_to H6)). split; [exact HC|]. exact (zeros_valid _ _ _ _ _). }
      exact E.
Qed.
