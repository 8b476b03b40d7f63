(** Proofs for C68. *)
From Coq Require Import Znumtheory.
From Verif Require Import Base Constants Group Field Curve PointModel EncodingModel HasherModel HashCurveModel HashCurveSpec CodecModel CodecSpec CodecProofs PropHashCurve PropCodec
  CurveGroups CurveFinite CurveOrder CurveCount OrderSpec.

Lemma times_to n (P : g1_curve) : times g1_add None n (g1_to P) = g1_to (smul (Z.of_nat n) P).
Proof.
  induction n as [|n IH]; [reflexivity|]. cbn [times]. rewrite Nat2Z.inj_succ, smul_succ, ga_comm, g1_to_add, IH. reflexivity.
Qed.
Lemma g1_times_to k (P : g1_curve) : 0 <= k -> g1_times k (g1_to P) = g1_to (smul k P).
Proof. intros H. unfold g1_times. rewrite times_to, Z2Nat.id by exact H. reflexivity. Qed.
Lemma in_g1_iff (P : g1_curve) : in_g1 (g1_to P) <-> smul r P = gz.
Proof.
  rewrite g1_torsion. unfold in_g1. split; intros (k & Hk & E); exists k; (split; [exact Hk|]).
  - rewrite <- g1_to_gen, g1_times_to in E by (exact (proj1 Hk)). apply g1_to_eq, E.
  - rewrite <- g1_to_gen, g1_times_to by (exact (proj1 Hk)). f_equal. exact E.
Qed.
Lemma g1_points : has_points on_g1 (r * G1_COFACTOR).
Proof.
  destruct (fo_list _ _ g1_order) as (l & N & A & L). exists (map g1_to l). split; [|split].
  - apply FinFun.Injective_map_NoDup; [intros P Q; apply g1_to_eq|exact N].
  - intros P. rewrite in_map_iff. split; [intros (Q & <- & _); apply g1_to_on|]. intros H. exists (g1_of P). split; [apply g1_to_of, H|apply A].
  - rewrite map_length. exact L.
Qed.
Lemma g1_subgroup P : on_g1 P = true -> (in_g1 P <-> g1_times r P = None).
Proof.
  intros H. pose proof (g1_to_of P H) as E. rewrite <- E, in_g1_iff, g1_times_to by exact r_pos'. split; [intros ->; reflexivity|]. intros Z. apply g1_to_eq. rewrite Z. reflexivity.
Qed.
Lemma g1_unique k k' : 0 <= k < r -> 0 <= k' < r -> g1_times k g1_generator = g1_times k' g1_generator -> k = k'.
Proof.
  intros Hk Hk' E. rewrite <- g1_to_gen, !g1_times_to in E by (first [exact (proj1 Hk)|exact (proj1 Hk')]). apply g1_to_eq in E.
  apply (smul_inj_scalar g1_gen k k' gen_order gen_not_0) in E. rewrite !Z.mod_small in E by assumption. exact E.
Qed.
Lemma g1_cofactor : curve_group g1_curve g1_of G1_COFACTOR.
Proof. split; [apply g1_of_none|]. exact (fo_kills _ _ g1_order). Qed.
Lemma hash_in_g1 compat h sqrt d m x P c : bytes_hasher h -> sqrt_spec qmul sqrt ->
  g1_attempt compat h g1_curve g1_of G1_COFACTOR sqrt d m x = Ok (P, c) \/ g1_attempt_cip22 compat h g1_curve g1_of G1_COFACTOR sqrt d m x = Ok (P, c) ->
  in_g1 (g1_to P) /\ g1_to P <> None.
Proof.
  intros Hb Hs H. destruct (C26_g1_subgroup compat h g1_curve g1_of G1_COFACTOR sqrt d m x P c Hb Hs g1_cofactor H) as (N & Z & _). split; [apply in_g1_iff, Z|].
  intros E. apply N, g1_to_eq. rewrite E. reflexivity.
Qed.
Lemma test_ok Q : on_g1 (Some Q) = true -> (g1_test Q = true <-> in_g1 (Some Q)).
Proof. intros H. unfold g1_test. rewrite geqb_spec, <- in_g1_iff, g1_to_of by exact H. reflexivity. Qed.
Lemma zero_in_g1 : in_g1 None. Proof. exists 0. split; [split; [lia|reflexivity]|reflexivity]. Qed.
Lemma wire_on v Q : wire_g1 v (Some Q) -> on_g1 (Some Q) = true.
Proof. destruct Q as [X Y]. unfold wire_g1. intros H. unfold on_g1, on_curve. apply qeqb_spec. unfold G1_B. tauto. Qed.
Lemma signature_in_g1 sqrt l P : sqrt_spec qmul sqrt -> is_bytes l = true ->
  signature_deserialize sqrt g1_test l = Ok P <-> (48 <= length l)%nat /\ wire_g1 (number (firstn 48 l)) P /\ in_g1 P.
Proof.
  intros Hs Hl. rewrite (C30_signature_accepts sqrt g1_test l P Hs Hl). split; intros (A & B & C); (split; [exact A|]); (split; [exact B|]).
  - destruct P as [Q|]; [|exact zero_in_g1]. apply test_ok; [exact (wire_on _ _ B)|apply C; reflexivity].
  - intros Q ->. apply test_ok; [exact (wire_on _ _ B)|exact C].
Qed.
Lemma cof_pos : 0 <= G1_COFACTOR. Proof. discriminate. Qed.
Lemma g1_clears P : on_g1 P = true -> in_g1 (g1_times G1_COFACTOR P).
Proof.
  intros H. rewrite <- (g1_to_of P H), g1_times_to by exact cof_pos. apply in_g1_iff. rewrite <- smul_mul. exact (fo_kills _ _ g1_order (g1_of P)).
Qed.
