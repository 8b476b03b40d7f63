(** C68 on concrete points. *)
From Coq Require Import Znumtheory Field.
From Verif Require Import Base Constants Group Field Curve BlsModel PointModel EncodingModel EncodingProofs HasherModel HashCurveModel HashCurveSpec HashCurveProofs PropHashCurve HashCurveExamples CodecModel CodecSpec
  CurveGroups PointCert PointData CurveOrder CurveCount OrderSpec OrderProofs PropOrder.

Add Field FqF4 : fq_field.
(** The generator is in the subgroup; the point (0, 1), of order three, is on the curve but not in the subgroup, and the cofactor kills it. *)
Definition third : g1_point := Some (q0, q1).
Lemma third_on : on_g1 third = true. Proof. vm_compute. reflexivity. Qed.
Lemma third_order : smul 3 (g1_of third) = gz /\ g1_of third <> gz.
Proof. exact (killed three_last 3 0 1 ltac:(vm_compute; reflexivity)). Qed.
Lemma x0_third Y : qmul Y Y = qadd (qmul q0 (qmul q0 q0)) q1 -> Some (q0, Y) = third \/ Some (q0, Y) = g1_neg third.
Proof.
  intros HY. destruct (q_integral (qsub Y q1) (qadd Y q1)) as [Z|Z].
  - transitivity (qsub (qmul Y Y) q1); [ring|]. rewrite HY. ring.
  - left. apply qsub_0 in Z. rewrite Z. reflexivity.
  - right. unfold third, g1_neg, ec_neg. do 2 f_equal. apply qsub_0. rewrite <- Z. ring.
Qed.
Example generator_in : in_g1 g1_generator. Proof. exists 1. split; [split; [lia|reflexivity]|]. reflexivity. Qed.
Lemma gn_zero {G : grp} (P : G) : gn P = gz -> P = gz. Proof. intros H. rewrite <- (gn_gn P), H. apply gn_0. Qed.
Example third_not_in : ~ in_g1 third /\ ~ in_g1 (g1_neg third).
Proof.
  assert (R : r = (r / 3) * 3 + 1) by (vm_compute; reflexivity). destruct third_order as [K N]. split; intros H.
  - rewrite <- (g1_to_of third third_on) in H. apply in_g1_iff in H. apply N. rewrite R, smul_add, smul_mul, K, smul_gz, ga_0_l, smul_1 in H. exact H.
  - rewrite <- (g1_to_of (g1_neg third)) in H by (vm_compute; reflexivity). apply in_g1_iff in H. rewrite g1_of_neg, smul_gn, R, smul_add, smul_mul, K, smul_gz, ga_0_l, smul_1 in H. apply gn_zero in H. exact (N H).
Qed.
Example third_cleared : g1_times G1_COFACTOR third = None.
Proof.
  rewrite <- (g1_to_of third third_on), g1_times_to by exact cof_pos. destruct third_order as [K _].
  assert (R : G1_COFACTOR = (G1_COFACTOR / 3) * 3) by (vm_compute; reflexivity). rewrite R, smul_mul, K, smul_gz. reflexivity.
Qed.
(** A hasher whose first candidate is (0, 1), which the cofactor kills, and whose others are minus the generator. *)
Definition gen_bytes : bytes := le_bytes 48 gen_x0 ++ repeat 0 16.
Definition gen_hasher : HasherModel.hasher := mk_hasher (crh clip_hasher) (fun _ m n => Ok (if hd 0 m =? 0 then repeat 0 64 else gen_bytes)).
Lemma gen_hasher_bytes : bytes_hasher gen_hasher.
Proof.
  intros d m n out. split; cbn [crh xof gen_hasher]; intros H; [exact (proj1 (clip_bytes d m n out) H)|]. assert (E : (if hd 0 m =? 0 then repeat 0 64 else gen_bytes) = out) by congruence. rewrite <- E. destruct (hd 0 m =? 0); vm_compute; reflexivity.
Qed.
Definition hashed : g1_curve := smul G1_COFACTOR (gn g1_gen).
Lemma hashed_nz : hashed <> gz.
Proof.
  unfold hashed. rewrite smul_gn. intros H. apply gn_zero in H. apply (smul_eq_0_divide g1_gen _ gen_order gen_not_0) in H.
  apply Z.mod_divide in H; [|discriminate]. vm_compute in H. discriminate H.
Qed.
Example second_counter : g1_attempt true gen_hasher g1_curve g1_of G1_COFACTOR fq_sqrt SIG_DOMAIN [1; 2; 3] [4] = Ok (hashed, 1).
Proof.
  apply C25_g1_least_counter; [exact gen_hasher_bytes|exact fq_sqrt_ok|]. split; [lia|]. split.
  - exists gen_bytes. split; [reflexivity|]. split; [apply Nat.leb_le; reflexivity|]. exists (g1_neg g1_generator).
    split; [|split; [unfold hashed; rewrite g1_of_neg; reflexivity|exact hashed_nz]].
    unfold g1_neg, g1_generator, ec_neg, denotes_g1. cbn zeta. split; [vm_compute; reflexivity|]. split; [intros [K _]; vm_compute in K; discriminate K|].
    split; [vm_compute; reflexivity|]. split; [apply fq_ext; vm_compute; reflexivity|]. vm_compute. discriminate.
  - intros c' Hc. assert (c' = 0) as -> by lia. exists (repeat 0 64). split; [reflexivity|]. split; [apply Nat.leb_le; reflexivity|].
    intros P (Q & D & -> & N). apply N. assert (D' : denotes_g1 377 0 Q) by exact D. destruct Q as [[X Y]|]; [|destruct D' as (_ & _ & K); discriminate K].
    destruct D' as (_ & _ & HX & HY & HS). assert (X = q0) as -> by (apply fq_ext; rewrite HX; reflexivity).
    pose proof (x0_third Y HY) as Y1.
    change (smul G1_COFACTOR (g1_of (Some (q0, Y))) = gz). destruct third_order as [K _].
    assert (R : G1_COFACTOR = (G1_COFACTOR / 3) * 3) by (vm_compute; reflexivity). rewrite R, smul_mul. destruct Y1 as [-> | ->].
    + rewrite K. apply smul_gz.
    + rewrite g1_of_neg, smul_gn, K, gn_0. apply smul_gz.
Qed.
Example second_counter_in : in_g1 (g1_to hashed) /\ g1_to hashed <> None.
Proof. exact (C68_hash_to_g1 true gen_hasher fq_sqrt SIG_DOMAIN [1; 2; 3] [4] hashed 1 gen_hasher_bytes fq_sqrt_ok (or_introl second_counter)). Qed.
(** The generator read from its bytes; the bytes of (0, 1) are refused. *)
Example generator_read : signature_deserialize fq_sqrt g1_test (signature_serialize g1_generator) = Ok g1_generator.
Proof.
  apply C68_signature_accepts; [exact fq_sqrt_ok|vm_compute; reflexivity|]. split; [apply Nat.leb_le; vm_compute; reflexivity|]. split; [|exact generator_in].
  unfold g1_generator, wire_g1. split; [apply fq_ext; vm_compute; reflexivity|]. right. split; [vm_compute; reflexivity|]. vm_compute. discriminate.
Qed.
Example third_refused : forall P, signature_deserialize fq_sqrt g1_test (repeat 0 48) <> Ok P.
Proof.
  intros P H. apply C68_signature_accepts in H; [|exact fq_sqrt_ok|reflexivity]. destruct H as (_ & W & I). assert (W' : wire_g1 0 P) by exact W. clear W.
  destruct P as [[X Y]|]; [|destruct W' as (x & Hx & E); clear - Hx E; change (2 ^ 382) with (Z.pow 2 382) in E; pose proof (Z.pow_pos_nonneg 2 382 ltac:(lia) ltac:(lia)); lia].
  destruct W' as (Q & V). assert (EX : fqv X = 0) by (pose proof (fqv_range X); pose proof (Z.pow_pos_nonneg 2 383 ltac:(lia) ltac:(lia)); destruct V as [[V _]|[V _]]; lia).
  assert (X = q0) as -> by (apply fq_ext; rewrite EX; reflexivity). destruct (x0_third Y Q) as [E|E]; rewrite E in I; apply third_not_in in I; exact I.
Qed.
