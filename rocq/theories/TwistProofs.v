(** Proofs for C69. *)
From Coq Require Import Znumtheory.
From Verif Require Import Base Constants Group Field Curve PointModel EncodingModel HasherModel HashCurveModel HashCurveSpec CodecModel CodecSpec CodecProofs PropHashCurve PropCodec
  CurveGroups CurveFinite CurveCount TwistOrder TwistCount OrderSpec TwistSpec.

Lemma times_to2 n (P : g2_curve) : times g2_add None n (g2_to P) = g2_to (smul (Z.of_nat n) P).
Proof.
  induction n as [|n IH]; [reflexivity|]. cbn [times]. rewrite Nat2Z.inj_succ, smul_succ, ga_comm, g2_to_add, IH. reflexivity.
Qed.
Lemma g2_times_to k (P : g2_curve) : 0 <= k -> g2_times k (g2_to P) = g2_to (smul k P).
Proof. intros H. unfold g2_times. rewrite times_to2, Z2Nat.id by exact H. reflexivity. Qed.
Lemma in_g2_iff (P : g2_curve) : in_g2 (g2_to P) <-> smul r P = gz.
Proof.
  rewrite g2_torsion. unfold in_g2. split; intros (k & Hk & E); exists k; (split; [exact Hk|]).
  - rewrite <- g2_to_gen, g2_times_to in E by (exact (proj1 Hk)). apply g2_to_eq, E.
  - rewrite <- g2_to_gen, g2_times_to by (exact (proj1 Hk)). f_equal. exact E.
Qed.
Lemma g2_points : has_points on_twist (r * G2_COFACTOR).
Proof.
  destruct (fo_list _ _ g2_order) as (l & N & A & L). exists (map g2_to l). split; [|split].
  - apply FinFun.Injective_map_NoDup; [intros P Q; apply g2_to_eq|exact N].
  - intros P. rewrite in_map_iff. split; [intros (Q & <- & _); apply g2_to_on|]. intros H. exists (g2_of P). split; [apply g2_to_of, H|apply A].
  - rewrite map_length. exact L.
Qed.
Lemma g2_subgroup P : on_twist P = true -> (in_g2 P <-> g2_times r P = None).
Proof.
  intros H. pose proof (g2_to_of P H) as E. rewrite <- E, in_g2_iff, g2_times_to by exact r_pos'. split; [intros ->; reflexivity|]. intros Z. apply g2_to_eq. rewrite Z. reflexivity.
Qed.
Lemma g2_unique k k' : 0 <= k < r -> 0 <= k' < r -> g2_times k g2_generator = g2_times k' g2_generator -> k = k'.
Proof.
  intros Hk Hk' E. rewrite <- g2_to_gen, !g2_times_to in E by (first [exact (proj1 Hk)|exact (proj1 Hk')]). apply g2_to_eq in E.
  apply (smul_inj_scalar g2_gen k k' gen2_order gen2_not_0) in E. rewrite !Z.mod_small in E by assumption. exact E.
Qed.
Lemma g2_cofactor : curve_group g2_curve g2_of G2_COFACTOR.
Proof. split; [apply g2_of_none|]. exact (fo_kills _ _ g2_order). Qed.
Lemma hash_in_g2 compat h sqrt d m x P c : bytes_hasher h -> sqrt_spec q2mul sqrt ->
  g2_attempt compat h g2_curve g2_of G2_COFACTOR sqrt d m x = Ok (P, c) \/ g2_attempt_cip22 compat h g2_curve g2_of G2_COFACTOR sqrt d m x = Ok (P, c) ->
  in_g2 (g2_to P) /\ g2_to P <> None.
Proof.
  intros Hb Hs H. destruct (C26_g2_subgroup compat h g2_curve g2_of G2_COFACTOR sqrt d m x P c Hb Hs g2_cofactor H) as (N & Z & _). split; [apply in_g2_iff, Z|].
  intros E. apply N, g2_to_eq. rewrite E. reflexivity.
Qed.
Lemma test_ok2 Q : on_twist (Some Q) = true -> (g2_test Q = true <-> in_g2 (Some Q)).
Proof. intros H. unfold g2_test. rewrite geqb_spec, <- in_g2_iff, g2_to_of by exact H. reflexivity. Qed.
Lemma zero_in_g2 : in_g2 None. Proof. exists 0. split; [split; [lia|reflexivity]|reflexivity]. Qed.
Lemma wire_on2 v Q : wire_g2 v (Some Q) -> on_twist (Some Q) = true.
Proof. destruct Q as [X Y]. unfold wire_g2. intros [H _]. unfold on_twist, on_curve. apply q2eqb_spec. exact H. Qed.
Lemma key_in_g2 sqrt l P : sqrt_spec q2mul sqrt -> is_bytes l = true ->
  public_key_deserialize sqrt g2_test l = Ok P <-> (96 <= length l)%nat /\ wire_g2 (number (firstn 96 l)) P /\ in_g2 P.
Proof.
  intros Hs Hl. rewrite (C30_public_key_accepts sqrt g2_test l P Hs Hl). split; intros (A & B & C); (split; [exact A|]); (split; [exact B|]).
  - destruct P as [Q|]; [|exact zero_in_g2]. apply test_ok2; [exact (wire_on2 _ _ B)|apply C; reflexivity].
  - intros Q ->. apply test_ok2; [exact (wire_on2 _ _ B)|exact C].
Qed.
Lemma cof2_pos : 0 <= G2_COFACTOR. Proof. discriminate. Qed.
Lemma g2_clears P : on_twist P = true -> in_g2 (g2_times G2_COFACTOR P).
Proof.
  intros H. rewrite <- (g2_to_of P H), g2_times_to by exact cof2_pos. apply in_g2_iff. rewrite <- smul_mul. exact (fo_kills _ _ g2_order (g2_of P)).
Qed.
