(** C75 on the keys, the hash and the proof of possession of C70's examples: the victims have the private keys 7 and 9, the attacker signs with 5. *)
From Verif Require Import Base Constants Group Field Curve BlsModel PointModel CacheModel CacheSpec EncodingModel HashCurveModel HashCurveSpec HashCurveProofs CodecModel CodecSpec CodecProofs
  FfiModel CurveGroups CurveOrder TwistOrder OrderSpec TwistSpec TwistProofs PropTwist RealSpec RealModel RealProofs PropReal RealExamples RealBatchSpec RealSessionModel RealSessionSpec RealSessionExamples RogueSpec RogueProofs PropRogue.

Notation point k := (g2_times k g2_generator).
Lemma point_in k : 0 <= k < 256 -> in_g2 (point k). Proof. intros H. exists k. split; [apply small, H|reflexivity]. Qed.
Lemma point_add a b : 0 <= a -> 0 <= b -> g2_add (point a) (point b) = point (a + b).
Proof. intros A B. rewrite <- g2_to_gen, !g2_times_to by lia. rewrite smul_add. symmetry. apply g2_to_add. Qed.
Lemma points_sum : fold_right g2_add None [point 7; point 9] = point 16.
Proof.
  cbn [fold_right]. assert (Z : g2_add (point 9) None = point 9) by exact (point_add 9 0 ltac:(lia) ltac:(lia)). rewrite Z. exact (point_add 7 9 ltac:(lia) ltac:(lia)).
Qed.
Lemma points_in : Forall in_g2 [point 7; point 9].
Proof. constructor; [apply point_in; lia|]. constructor; [apply point_in; lia|constructor]. Qed.
Lemma points_differ a b : 0 <= a < 256 -> 0 <= b < 256 -> a <> b -> point a <> point b.
Proof. intros A B N E. apply N. exact (C69_g2_generates a b (small a A) (small b B) E). Qed.
Example rogue75 : exists R, rogue 5 [point 7; point 9] R /\ ~ In R [point 7; point 9].
Proof.
  destruct (C75_rogue_exists 5 _ (small 5 ltac:(lia)) points_in) as (R & H). exists R. split; [exact H|]. destruct H as (_ & E). rewrite points_sum in E.
  intros [K|[K|[]]]; rewrite <- K, point_add in E by lia; revert E; apply points_differ; lia.
Qed.
Definition victims75 : list given := [Given true (pk_of 7); Given false (pk_of 9 ++ [1])].
(** The three keys aggregated accept the signature of 5 alone on the second block of C67. *)
Example accepted75 : exists R m x, rogue 5 [point 7; point 9] R /\
  snd (serve (after before74) (Aggregate one other (Given false (public_key_serialize R) :: victims75))) = Some (pk_of 5) /\ verify70 (pk_of 5) (sig_of 5) m x true true = Some true.
Proof.
  destruct rogue75 as (R & H & N). destruct hashed70 as (m & x & HM). exists R, m, x. split; [exact H|]. pose proof orders as (O1 & O2).
  destruct (C75_aggregate_of_all_refuted g1_curve e70 e70_bilinear true ped70 fq_sqrt fq2_sqrt ped70_bytes fq_sqrt_ok fq2_sqrt_ok fst_number before74 one other false victims75 [point 7; point 9] R (key_of 5) (pk_of 5)) as (A & B).
  - exact before74_proper.
  - exact O1.
  - exact O2.
  - apply RealExamples.key_bytes. lia.
  - constructor; [apply pk_bytes|]. constructor; [apply given_bytes; reflexivity|constructor].
  - constructor; [apply pk_key_exact; lia|]. constructor; [apply pk_key; [lia|reflexivity]|constructor].
  - constructor; [intros [K|[]]; revert K; apply points_differ; lia|]. constructor; [intros []|constructor].
  - exact N.
  - rewrite key_number. exact H.
  - apply public70. lia.
  - split; [exact A|]. apply B with (1 := sign70 m x 5 ltac:(lia) HM).
Qed.
(** The proof of possession of key 7 on the message [1] turned into one for a key that cancels it. *)
Lemma drop_nil (F : bytes -> bytes -> Prop) a b : F (a ++ []) (b ++ []) -> F a b. Proof. rewrite !app_nil_r. exact (fun H => H). Qed.
Example stolen75 : exists R T, rogue 5 [point 7] R /\ c_verify_pop g1_curve e70 e70_bilinear true fq_sqrt fq2_sqrt (public_key_serialize R) (signature_serialize T) [1] = Some true.
Proof.
  pose proof (proj1 (hashed_in true ped70 fq_sqrt ped70_bytes fq_sqrt_ok _ _ _ _ _ _ pop_hashed)) as IH.
  assert (IS : in_g1 (g1_times 7 (g1_to pop_hash))) by (destruct (in_g1_times 7 _ ltac:(lia) IH) as (s & <-); apply to1_in).
  destruct (sig_bytes_ser fq_sqrt fq_sqrt_ok _ IS) as (BS & KS).
  assert (S : c_sign_pop g1_curve e70 e70_bilinear true fq_sqrt (key_of 7) [1] = Some (signature_serialize (g1_times 7 (g1_to pop_hash)))).
  { apply (C70_sign_pop _ _ _ _ _ _ ped70_bytes fq_sqrt_ok); [reflexivity|]. rewrite key_number. exists (g1_to pop_hash). split; [cbn [key_of repeat length]; lia|]. split; [reflexivity|]. split; [exact pop_hashed|reflexivity]. }
  pose proof (C70_round_trip_pop _ _ _ _ _ _ _ ped70_bytes fq_sqrt_ok fq2_sqrt_ok (key_of 7) _ _ [1] [] [] eq_refl eq_refl eq_refl (public70 7 ltac:(lia)) S) as V.
  apply (drop_nil (fun a b => c_verify_pop g1_curve e70 e70_bilinear true fq_sqrt fq2_sqrt a b [1] = Some true) (pk_of 7) (signature_serialize (g1_times 7 (g1_to pop_hash)))) in V.
  destruct (C75_possession_same_message_refuted g1_curve e70 e70_bilinear true ped70 fq_sqrt fq2_sqrt ped70_bytes fq_sqrt_ok fq2_sqrt_ok 5 _ _ _ _ [1] _ (small 5 ltac:(lia)) (pk_bytes 7) BS (pk_key_exact 7 ltac:(lia)) KS pop_hashed V) as (R & T & HR & _ & HV).
  exists R, T. split; [exact HR|exact HV].
Qed.
