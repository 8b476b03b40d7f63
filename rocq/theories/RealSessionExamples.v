(** C74 on the keys and the hash of C70's examples. *)
From Coq Require Import Permutation.
From Verif Require Import Base Constants Group Field Curve BlsModel PointModel CacheModel CacheSpec EncodingModel EncodingProofs HasherModel HashCurveModel HashCurveSpec HashCurveProofs CodecModel CodecSpec CodecProofs PropCodec
  FfiModel FfiRestProofs CurveGroups CurveOrder OrderSpec OrderProofs TwistSpec TwistProofs HashGadgetNative HashGadgetExamples RealSpec RealModel RealProofs PropReal RealExamples RealBatchSpec RealSessionModel RealSessionSpec RealSessionProofs PropRealSession.

Notation request74 := (request fq2_sqrt fst_number).
Definition one : order (real_cache fq2_sqrt fst_number) := fun l => l.
Definition other : order (real_cache fq2_sqrt fst_number) := @rev _.
Definition all74 : list given := [Given true (pk_of 7); Given false (pk_of 9 ++ [1; 2; 3]); Given true (pk_of 11)].
Definition absent74 : list given := [Given true (pk_of 9)].
(** Requests before: a sum with a repeated key, one with a key that cannot be read, and a difference. *)
Definition before74 : list request74 :=
  [Aggregate one other [Given true (pk_of 7); Given true (pk_of 7)]; Aggregate other one [Given true (pk_of 9); Given true [1]]; Subtract one one (Given false (pk_of 9)) [Given true (pk_of 11)]].
Lemma given_bytes c k rest : is_bytes rest = true -> is_bytes (g_bytes (Given c (pk_of k ++ rest))) = true.
Proof. intros B. cbn [g_bytes]. unfold is_bytes. rewrite forallb_app. apply andb_true_iff. split; [apply pk_bytes|exact B]. Qed.
Lemma all74_bytes : Forall (fun k => is_bytes (g_bytes k) = true) all74.
Proof. constructor; [apply pk_bytes|]. constructor; [apply given_bytes; reflexivity|]. constructor; [apply pk_bytes|constructor]. Qed.
Lemma before74_proper : Forall proper before74.
Proof.
  pose proof orders as (O1 & O2). constructor; [|constructor; [|constructor; [|constructor]]]; (split; [assumption|]); (split; [assumption|]).
  - constructor; [apply pk_bytes|]. constructor; [apply pk_bytes|constructor].
  - constructor; [apply pk_bytes|]. constructor; [reflexivity|constructor].
  - split; [apply pk_bytes|]. constructor; [apply pk_bytes|constructor].
Qed.
Lemma pk_part c k rest : key_part (Given c (pk_of k ++ rest)) = pk_of k.
Proof. unfold key_part. cbn [g_bytes]. rewrite firstn_app. assert (L : length (pk_of k) = 96%nat) by (unfold pk_of; apply C30_sizes). rewrite L, Nat.sub_diag, pk_first. apply app_nil_r. Qed.
Lemma pk_part_exact c k : key_part (Given c (pk_of k)) = pk_of k. Proof. apply pk_first. Qed.
Lemma parts74 : map key_part all74 = [pk_of 7; pk_of 9; pk_of 11].
Proof. unfold all74. rewrite !map_cons, !pk_part_exact, pk_part. reflexivity. Qed.
Lemma pk_key k rest : 0 <= k < 256 -> is_bytes rest = true -> key_bytes (pk_of k ++ rest) (g2_times k g2_generator).
Proof. intros Hk B. apply (key_bytes_ser fq2_sqrt fq2_sqrt_ok); [exists k; split; [apply small, Hk|reflexivity]|exact B]. Qed.
Lemma pk_key_exact k : 0 <= k < 256 -> key_bytes (pk_of k) (g2_times k g2_generator).
Proof. intros Hk. rewrite <- (app_nil_r (pk_of k)). apply pk_key; [exact Hk|reflexivity]. Qed.
Lemma parts_finite ks bs : map key_part ks = bs -> Forall (fun b => ~ wire_g2 (number (firstn 96 b)) None) bs -> Forall (fun k => ~ wire_g2 (number (key_part k)) None) ks.
Proof.
  intros <-. induction ks as [|k ks IH]; [constructor|]. rewrite map_cons. intros F. constructor; [|exact (IH (Forall_inv_tail F))].
  pose proof (Forall_inv F) as K. cbv beta in K. unfold key_part in K. rewrite firstn_firstn, Nat.min_id in K. exact K.
Qed.
Example aggregated74 : exists apk, snd (serve (after before74) (Aggregate one other all74)) = Some apk.
Proof.
  apply (C74_aggregate_answered fq2_sqrt fst_number fq2_sqrt_ok); [exact before74_proper|split; [apply orders|split; [apply orders|exact all74_bytes]]|].
  constructor; [eexists; apply pk_key_exact; lia|]. constructor; [eexists; apply pk_key; [lia|reflexivity]|]. constructor; [eexists; apply pk_key_exact; lia|constructor].
Qed.
(** Keys 7 and 11 sign, key 9 does not. *)
Example signers74 : exists m x apk spk asig, snd (serve (after before74) (Aggregate one other all74)) = Some apk /\
  snd (serve (after (Aggregate one other all74 :: before74)) (Subtract other one (Given true (apk ++ [5])) absent74)) = Some spk /\
  c_aggregate g1_curve e70 e70_bilinear fq_sqrt [sig_of 11; sig_of 7] = Some asig /\ verify70 spk asig m x true true = Some true.
Proof.
  destruct hashed70 as (m & x & H). destruct aggregated74 as (apk & HA). exists m, x, apk. pose proof orders as (O1 & O2).
  assert (PA : proper (Aggregate (sqrt2 := fq2_sqrt) (fh := fst_number) one other all74)) by (split; [exact O1|split; [exact O2|exact all74_bytes]]).
  destruct (C74_signers g1_curve e70 e70_bilinear true ped70 fq_sqrt fq2_sqrt ped70_bytes fq_sqrt_ok fq2_sqrt_ok fst_number before74 (Aggregate one other all74 :: before74) one other other one all74 absent74 [pk_of 11; pk_of 7] [sig_of 11; sig_of 7] true [5] apk m x true true) as (spk & asig & R).
  - exact before74_proper.
  - constructor; [exact PA|exact before74_proper].
  - exact PA.
  - exact O2.
  - exact O1.
  - reflexivity.
  - constructor; [apply pk_bytes|constructor].
  - cbn [forallb]. rewrite !pk_bytes. reflexivity.
  - cbn [forallb]. rewrite !RealExamples.sig_bytes. reflexivity.
  - rewrite parts74. constructor; [intros [K|[K|[]]]; revert K; apply pk_differ; lia|]. constructor; [intros [K|[]]; revert K; apply pk_differ; lia|]. constructor; [intros []|constructor].
  - apply (parts_finite _ _ parts74). constructor; [apply pk_finite; lia|]. constructor; [apply pk_finite; lia|]. constructor; [apply pk_finite; lia|constructor].
  - rewrite parts74. unfold absent74. rewrite !map_cons, pk_part_exact, !pk_first. apply (Permutation_trans (Permutation_cons_append [pk_of 9; pk_of 11] (pk_of 7))). cbn [app map].
    apply (Permutation_trans (perm_swap (pk_of 11) (pk_of 9) [pk_of 7])). apply perm_skip, perm_swap.
  - intros K. discriminate K.
  - constructor; [exact (accepts70_exact m x 11 ltac:(lia) H)|constructor; [exact (accepts70_exact m x 7 ltac:(lia) H)|constructor]].
  - exact HA.
  - exists spk, asig. split; [exact HA|exact R].
Qed.
(** The same keys in another order, one of them twice, read in other ways: the same answer. *)
Example same74 : snd (serve (after before74) (Aggregate one other all74)) =
  snd (serve (after []) (Aggregate other other [Given false (pk_of 11); Given true (pk_of 7 ++ [0]); Given true (pk_of 11); Given false (pk_of 9)])).
Proof.
  pose proof orders as (O1 & O2). apply (C74_same_keys_same_sum fq2_sqrt fst_number fq2_sqrt_ok); [exact before74_proper|constructor|split; [exact O1|split; [exact O2|exact all74_bytes]]| |].
  - split; [exact O2|split; [exact O2|]]. constructor; [apply pk_bytes|]. constructor; [apply given_bytes; reflexivity|]. constructor; [apply pk_bytes|]. constructor; [apply pk_bytes|constructor].
  - intros b. rewrite parts74, !map_cons, !pk_part_exact, pk_part. cbn [map In]. generalize (pk_of 7), (pk_of 9), (pk_of 11). intros. tauto.
Qed.
(** The third request before: key 9 minus key 11, although 11 is no part of it; subtracting 11 once more gives another key. *)
Example again74 : exists out out', snd (serve (after []) (Subtract one one (Given false (pk_of 9)) [Given true (pk_of 11)])) = Some out /\
  snd (serve (after before74) (Subtract other one (Given true (out ++ [])) [Given true (pk_of 11)])) = Some out' /\ out' <> out.
Proof.
  pose proof orders as (O1 & O2).
  assert (PS : proper (Subtract (sqrt2 := fq2_sqrt) (fh := fst_number) one one (Given false (pk_of 9)) [Given true (pk_of 11)])) by (split; [exact O1|split; [exact O1|split; [apply pk_bytes|constructor; [apply pk_bytes|constructor]]]]).
  destruct (proj2 (C74_answered fq2_sqrt fst_number fq2_sqrt_ok [] one one _ _ (Forall_nil _) PS)) as (out & HO); [constructor; [eexists; apply pk_key_exact; lia|constructor; [eexists; apply pk_key_exact; lia|constructor]]|].
  exists out. destruct (C74_subtract_again fq2_sqrt fst_number fq2_sqrt_ok [] before74 one one other one _ _ true [] out (Forall_nil _) before74_proper PS O2 O1 eq_refl) as (out' & R); [rewrite pk_part_exact, <- pk_first; apply pk_finite; lia|exact HO|].
  exists out'. split; [exact HO|exact R].
Qed.
(** Another thread aggregates key 7 alone between the reading of the keys and their aggregation, and clears the cache before. *)
Example amid74 : exists out, aggregate_amid one other (after before74) [([], Given true (pk_of 7)); ([OpClear], Given true (pk_of 9))] [OpAggregate (E := real_cache fq2_sqrt fst_number) one one [jac2 (g2_times 7 g2_generator)]] = Some out /\
  owed (Aggregate (sqrt2 := fq2_sqrt) (fh := fst_number) one other [Given true (pk_of 7); Given true (pk_of 9)]) out.
Proof.
  pose proof orders as (O1 & O2). set (ks := [([], Given true (pk_of 7)); ([OpClear], Given true (pk_of 9))]).
  assert (PA : proper (Aggregate (sqrt2 := fq2_sqrt) (fh := fst_number) one other [Given true (pk_of 7); Given true (pk_of 9)])) by (split; [exact O1|split; [exact O2|constructor; [apply pk_bytes|constructor; [apply pk_bytes|constructor]]]]).
  destruct (proj2 (C74_aggregate_answered fq2_sqrt fst_number fq2_sqrt_ok [] one other _ (Forall_nil _) PA)) as (out & HO); [constructor; [eexists; apply pk_key_exact; lia|constructor; [eexists; apply pk_key_exact; lia|constructor]]|].
  apply (serve_owed fq2_sqrt fst_number fq2_sqrt_ok [] _ _ (Forall_nil _) PA) in HO. exists out. split; [|exact HO].
  refine (proj2 (C74_amid_other_threads fq2_sqrt fst_number fq2_sqrt_ok before74 one other ks _ out before74_proper O1 O2 _ _) HO).
  - constructor; [split; [constructor|apply pk_bytes]|]. constructor; [split; [constructor; [exact I|constructor]|apply pk_bytes]|constructor].
  - constructor; [split; exact O1|constructor].
Qed.
