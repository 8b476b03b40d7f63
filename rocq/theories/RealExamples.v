(** C70 on a concrete case: a bilinear map on the groups of BLS12-377, built from logarithms found by trying all of them, and the hash of C67's second block. *)
From Coq Require Import Permutation.
From Verif Require Import Base Constants Group Field Curve BlsModel PointModel CacheModel CacheSpec EncodingModel EncodingProofs HasherModel HashCurveModel HashCurveSpec HashCurveProofs PropHashCurve HashCurveExamples CodecModel CodecSpec CodecProofs PropCodec
  FfiModel FfiRestProofs ProverSpec CurveGroups PointCert CurveCount CurveOrder TwistOrder TwistCount OrderSpec OrderProofs TwistSpec TwistProofs PropTwist CurvesExamples HashGadgetModel HashGadgetSpec HashGadgetNative HashGadgetExamples EpochExamples LightExamples SetupExamples RealData RealSpec RealModel RealProofs PropReal.

(** ** Logarithms in a group *)
Section Log.
  Context {G : grp} (g : G).
  Fixpoint log_up_to (n : nat) (P : G) : Z := match n with O => 0 | S n' => if geqb P (smul (Z.of_nat n') g) then Z.of_nat n' else log_up_to n' P end.
  Lemma log_up_to_ok n P k : 0 <= k < Z.of_nat n -> P = smul k g -> P = smul (log_up_to n P) g.
  Proof.
    induction n as [|n IH]; intros Hk E; [lia|]. cbn [log_up_to]. destruct (geqb P (smul (Z.of_nat n) g)) eqn:D; [apply geqb_spec, D|]. apply IH; [|exact E].
    assert (k <> Z.of_nat n); [|lia]. intros ->. assert (geqb P (smul (Z.of_nat n) g) = true) by (apply geqb_spec, E). congruence.
  Qed.
End Log.
Lemma log_exists {G : grp} (g : G) n : Z.of_nat n = r -> forall k P, 0 <= k < r -> P = smul k g -> P = smul (log_up_to g n P) g.
Proof. intros E k P Hk. apply log_up_to_ok. rewrite E. exact Hk. Qed.
Definition log2 (P : g2_curve) : Z := log_up_to g2_gen (Z.to_nat r) P.
Lemma log2_ok P : smul r P = gz -> P = smul (log2 P) g2_gen.
Proof. intros H. apply TwistCount.g2_torsion in H as (k & Hk & E). exact (log_exists g2_gen _ (Z2Nat.id r r_pos') k P Hk E). Qed.
Lemma same_log {G G' : grp} (g : G) (P : G') a b : smul r g = gz -> g <> gz -> smul r P = gz -> smul a g = smul b g -> smul a P = smul b P.
Proof. intros K N KP E. apply (smul_inj_scalar g a b K N) in E. rewrite <- (smul_mod_ord P a KP), E. exact (smul_mod_ord P b KP). Qed.
Definition e70 (P : g1_point) (Q : g2_point) : g1_curve := smul (log2 (g2_of Q)) (g1_of P).
Lemma killed_sum {G : grp} k (P Q : G) : smul k P = gz -> smul k Q = gz -> smul k (ga P Q) = gz.
Proof. intros H K. rewrite smul_ga, H, K. apply ga_0_l. Qed.
Example e70_bilinear : bilinear e70.
Proof.
  split; [|split].
  - intros P P' Q (A & _ & ->)%in_g1_of (A' & _ & ->)%in_g1_of _. unfold e70. rewrite <- g1_to_add, !g1_of_to. apply smul_ga.
  - intros P Q Q' (A & KA & ->)%in_g1_of (B & KB & ->)%in_g2_of (B' & KB' & ->)%in_g2_of. unfold e70. rewrite <- g2_to_add, !g2_of_to, g1_of_to, <- smul_add.
    apply (same_log g2_gen A _ _ gen2_order gen2_not_0 KA). rewrite smul_add, <- (log2_ok _ KB), <- (log2_ok _ KB'). symmetry. exact (log2_ok _ (killed_sum _ _ _ KB KB')).
  - unfold e70. rewrite <- g2_to_gen, <- g1_to_gen, g2_of_to, g1_of_to. rewrite (same_log g2_gen g1_gen (log2 g2_gen) 1 gen2_order gen2_not_0 gen_order).
    + rewrite smul_1. exact gen_not_0.
    + exact (eq_sym (eq_trans (smul_1 g2_gen) (log2_ok _ gen2_order))).
Qed.
(** ** Signing the second block of C67 with the private keys 7 and 9 *)
Definition ped70 : bytes -> result bytes := native_ped ped_one.
Lemma ped70_bytes m out : ped70 m = Ok out -> is_bytes out = true.
Proof. unfold ped70, native_ped, ped_one. intros E. apply ok_inj in E. subst out. apply le_bytes_is_bytes. Qed.
Example hashed70 : exists m x, hashed true ped70 fq_sqrt true true SIG_DOMAIN m x (g1_to H6).
Proof. destruct hash_c6 as (m & x & c & _ & E). exists m, x, H6, c. split; [reflexivity|exact E]. Qed.
Definition key_of (k : Z) : bytes := k :: repeat 0 31.
Definition pk_of (k : Z) : bytes := public_key_serialize (g2_times k g2_generator).
Definition sig_of (k : Z) : bytes := signature_serialize (g1_times k (g1_to H6)).
Lemma key_number k : number (firstn 32 (key_of k)) = k.
Proof. cbn [firstn key_of repeat number]. lia. Qed.
Lemma key_bytes k : 0 <= k < 256 -> is_bytes (key_of k) = true.
Proof. intros H. apply andb_true_iff. split; [|reflexivity]. apply andb_true_iff. split; [apply Z.leb_le|apply Z.ltb_lt]; lia. Qed.
Lemma small k : 0 <= k < 256 -> 0 <= k < r.
Proof. intros H. assert (256 < r) by reflexivity. split; [apply H|]. apply (Z.lt_trans _ 256); [apply H|exact H0]. Qed.
Example public70 k : 0 <= k < 256 -> c_public_key g1_curve e70 e70_bilinear (key_of k) = Some (pk_of k).
Proof.
  intros H. apply C70_public_key; [exact (key_bytes k H)|]. rewrite key_number. split; [cbn [key_of repeat length]; lia|]. split; [apply small, H|reflexivity].
Qed.
Example sign70 m x k : 0 <= k < 256 -> hashed true ped70 fq_sqrt true true SIG_DOMAIN m x (g1_to H6) -> c_sign g1_curve e70 e70_bilinear true ped70 fq_sqrt (key_of k) m x true true = Some (sig_of k).
Proof.
  intros Hk H. apply (C70_sign _ _ _ _ _ _ ped70_bytes fq_sqrt_ok); [exact (key_bytes k Hk)|]. rewrite key_number. exists (g1_to H6). split; [cbn [key_of repeat length]; lia|]. split; [apply small, Hk|]. split; [exact H|reflexivity].
Qed.
Notation verify70 := (c_verify g1_curve e70 e70_bilinear true ped70 fq_sqrt fq2_sqrt).
Lemma accepts70 m x k rest rest' : 0 <= k < 256 -> is_bytes rest = true -> is_bytes rest' = true -> hashed true ped70 fq_sqrt true true SIG_DOMAIN m x (g1_to H6) ->
  verify70 (pk_of k ++ rest) (sig_of k ++ rest') m x true true = Some true.
Proof.
  intros Hk R R' H. exact (C70_round_trip _ _ _ _ _ _ _ ped70_bytes fq_sqrt_ok fq2_sqrt_ok (key_of k) _ _ m x true true rest rest' (key_bytes k Hk) R R' (public70 k Hk) (sign70 m x k Hk H)).
Qed.
Example verify70_7 : exists m x, verify70 (pk_of 7 ++ [1; 2]) (sig_of 7 ++ [3]) m x true true = Some true.
Proof. destruct hashed70 as (m & x & H). exists m, x. apply accepts70; [lia|reflexivity|reflexivity|exact H]. Qed.
Lemma accepts70_exact m x k : 0 <= k < 256 -> hashed true ped70 fq_sqrt true true SIG_DOMAIN m x (g1_to H6) -> verify70 (pk_of k) (sig_of k) m x true true = Some true.
Proof. intros Hk H. pose proof (accepts70 m x k [] [] Hk eq_refl eq_refl H) as A. rewrite (app_nil_r (pk_of k)), (app_nil_r (sig_of k)) in A. exact A. Qed.
(** The two keys differ, and neither is infinity. *)
Definition fst_number (a : fq2) : Z := fqv (fst a).
Lemma pk_bytes k : is_bytes (pk_of k) = true. Proof. unfold pk_of, public_key_serialize, affine_serialize. destruct (g2_times k g2_generator) as [[X Y]|]; apply fq2_write_is_bytes. Qed.
Lemma sig_bytes k : is_bytes (sig_of k) = true. Proof. unfold sig_of, signature_serialize, affine_serialize. destruct (g1_times k (g1_to H6)) as [[X Y]|]; apply fq_write_is_bytes. Qed.
Lemma pk_first k : firstn 96 (pk_of k) = pk_of k.
Proof. apply firstn_all2. unfold pk_of. rewrite (proj1 (proj2 (proj2 C30_sizes) _)). apply Nat.le_refl. Qed.
Lemma pk_reads k : 0 <= k < 256 -> public_key_deserialize fq2_sqrt g2_test (pk_of k) = Ok (g2_times k g2_generator).
Proof.
  intros H. apply deserialize_iff. unfold pk_of. rewrite <- (app_nil_r (public_key_serialize _)).
  refine (read_key_ser fq2_sqrt fq2_sqrt_ok _ [] _ eq_refl). exists k. split; [exact (small k H)|reflexivity].
Qed.
Lemma pk_differ k k' : 0 <= k < 256 -> 0 <= k' < 256 -> k <> k' -> pk_of k <> pk_of k'.
Proof.
  intros H H' N E. apply N. apply C69_g2_generates; [exact (small k H)|exact (small k' H')|]. pose proof (pk_reads k H) as R. rewrite E, (pk_reads k' H') in R. congruence.
Qed.
Lemma pk_finite k : 0 < k < 256 -> ~ wire_g2 (number (firstn 96 (pk_of k))) None.
Proof.
  intros H W. assert (public_key_deserialize fq2_sqrt g2_test (pk_of k) = Ok None).
  { apply C30_public_key_accepts; [exact fq2_sqrt_ok|apply pk_bytes|]. split; [unfold pk_of; rewrite (proj1 (proj2 (proj2 C30_sizes) _)); apply Nat.le_refl|]. split; [exact W|]. intros Q D. discriminate D. }
  rewrite pk_reads in H0 by lia. assert (k = 0); [|lia]. apply C69_g2_generates; [apply small; lia|split; [lia|reflexivity]|]. change (g2_times 0 g2_generator) with (@None (fq2 * fq2)). congruence.
Qed.
Lemma orders : fair (E := real_cache fq2_sqrt fst_number) (fun l => l) /\ fair (E := real_cache fq2_sqrt fst_number) (@rev _).
Proof. split; intros l; [apply Permutation_refl|apply Permutation_sym, Permutation_rev]. Qed.
(** Aggregating the two, after the cache was used for one of them; giving one twice. *)
Definition before70 : list (cop (real_cache fq2_sqrt fst_number)) := [OpAggregate (E := real_cache fq2_sqrt fst_number) (fun l => l) (fun l => l) [jac2 g2_generator; jac2 (g2_times 7 g2_generator)]].
Lemma before70_fair : Forall fair_op before70. Proof. constructor; [split; exact (proj1 orders)|constructor]. Qed.
Example aggregate70 : exists m x pk sig, c_aggregate_keys fq2_sqrt fst_number before70 (fun l => l) (@rev _) [pk_of 7; pk_of 9] = Some pk /\
  c_aggregate g1_curve e70 e70_bilinear fq_sqrt [sig_of 7; sig_of 9] = Some sig /\ verify70 pk sig m x true true = Some true.
Proof.
  destruct hashed70 as (m & x & H). exists m, x.
  apply (C70_aggregate _ _ _ _ _ _ _ ped70_bytes fq_sqrt_ok fq2_sqrt_ok); [exact before70_fair|apply orders|apply orders|intros K; discriminate K|cbn [forallb]; rewrite !pk_bytes; reflexivity|cbn [forallb]; rewrite !sig_bytes; reflexivity| | |].
  - constructor; [apply pk_finite; lia|constructor; [apply pk_finite; lia|constructor]].
  - rewrite !map_cons, !pk_first. constructor; [intros [K|[]]; revert K; apply pk_differ; lia|]. constructor; [intros []|constructor].
  - constructor; [exact (accepts70_exact m x 7 ltac:(lia) H)|constructor; [exact (accepts70_exact m x 9 ltac:(lia) H)|constructor]].
Qed.
Example twice70 : exists m x pk sig, c_aggregate_keys fq2_sqrt fst_number before70 (fun l => l) (@rev _) [pk_of 7; pk_of 7] = Some pk /\
  c_aggregate g1_curve e70 e70_bilinear fq_sqrt [sig_of 7; sig_of 7] = Some sig /\ verify70 pk sig m x true true = Some false.
Proof.
  destruct hashed70 as (m & x & H). exists m, x.
  apply (C70_aggregate_repeated_key_rejected _ _ _ _ _ _ _ ped70_bytes fq_sqrt_ok fq2_sqrt_ok); [exact before70_fair|apply orders|apply orders|apply pk_bytes|apply sig_bytes|apply pk_finite; lia|].
  exact (accepts70_exact m x 7 ltac:(lia) H).
Qed.
(** ** A proof of possession of the key 7 on the message [1] *)
Definition pop_pt := (fq_of pop_x, fq_of pop_y).
Definition pop_hash : g1_curve := smul G1_COFACTOR (g1_of (Some pop_pt)).
Lemma pop_hash_not_0 : pop_hash <> gz.
Proof.
  assert (C : multiple_by pop_cert G1_COFACTOR pop_x pop_y pop_cleared_x pop_cleared_y = true) by (vm_compute; reflexivity).
  apply multiple_ok in C as (_ & O & E). unfold pop_hash. change (Some pop_pt) with (pt pop_x pop_y). rewrite E. apply pt_not_0, O.
Qed.
Example pop_hashed : hashed true ped70 fq_sqrt false false POP_DOMAIN [1] [] (g1_to pop_hash).
Proof.
  exists pop_hash, 0. split; [reflexivity|]. apply C25_g1_least_counter; [exact direct_bytes|exact fq_sqrt_ok|]. split; [lia|]. split; [|intros c' C; lia].
  assert (exists out, hash direct_hasher POP_DOMAIN ([0] ++ [] ++ [1]) 64 = Ok out /\ (48 <= length out)%nat /\ denotes_g1 377 (number (firstn 48 out)) (Some pop_pt)) as (out & H & L & D).
  { eexists. split; [vm_compute; reflexivity|]. split; [apply Nat.leb_le; vm_compute; reflexivity|]. unfold pop_pt. denotes_solve. }
  exists out. split; [exact H|]. split; [exact L|]. exists (Some pop_pt). split; [exact D|]. split; [reflexivity|exact pop_hash_not_0].
Qed.
Example pop70 : exists sig, c_sign_pop g1_curve e70 e70_bilinear true fq_sqrt (key_of 7) [1] = Some sig /\
  c_verify_pop g1_curve e70 e70_bilinear true fq_sqrt fq2_sqrt (pk_of 7 ++ [1]) (sig ++ [2]) [1] = Some true.
Proof.
  exists (signature_serialize (g1_times 7 (g1_to pop_hash))).
  assert (S : c_sign_pop g1_curve e70 e70_bilinear true fq_sqrt (key_of 7) [1] = Some (signature_serialize (g1_times 7 (g1_to pop_hash)))).
  { apply (C70_sign_pop _ _ _ _ _ _ ped70_bytes fq_sqrt_ok); [reflexivity|]. rewrite key_number. exists (g1_to pop_hash). split; [cbn [key_of repeat length]; lia|]. split; [reflexivity|]. split; [exact pop_hashed|reflexivity]. }
  split; [exact S|]. exact (C70_round_trip_pop _ _ _ _ _ _ _ ped70_bytes fq_sqrt_ok fq2_sqrt_ok (key_of 7) _ _ [1] [1] [2] eq_refl eq_refl eq_refl (public70 7 ltac:(lia)) S).
Qed.
