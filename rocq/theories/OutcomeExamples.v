(** Concrete cases meeting the hypotheses of C65, in the setting of EpochExamples: chains that are accepted,
    that are not, and that stop the witness generation in each of the ways there are. *)
From Verif Require Import Base Constants Group Field Curve BitsModel BitsProofs EncodingModel EncodingSpec EncodingProofs Blake2 HasherModel HasherSpec PointModel HashCurveModel HashCurveSpec HashCurveProofs
  Circuit GadgetModel GadgetSpec HashGadgetModel HashGadgetSpec HashGadgetProofs HashGadgetNative EpochCircuitModel EpochSpec ProverModel ProverSpec PropHashCurve HashGadgetExamples EpochExamples
  OutcomeSpec OutcomeProofs PropOutcome.

Lemma hash_some of1 ped b (H : z5_grp) : block_hash gen of1 to2 fq_sqrt ped true b H -> exists c, hash_block gen of1 to2 fq_sqrt ped true b = Ok (H, c).
Proof. intros (m & x & c & E & A). exists c. unfold hash_block. rewrite E. exact A. Qed.
Lemma goes3 debug b bitmap H : length (eb_keys b) = 3%nat -> hash_of b H -> length bitmap = 3%nat -> goes gen of1 to2 fq_sqrt ped_one true debug 3 (b, bitmap).
Proof.
  intros L HH LB. destruct (hash_some _ _ _ _ HH) as (c & E). split; [exact L|]. split; [eauto|]. cbn [snd]. split; [intros ->; discriminate LB|]. split; [exact LB|].
  intros _. unfold positions. pose proof (count_occ_bound Bool.bool_dec false bitmap). lia.
Qed.
Notation ts5 parent bitmap := [t6 parent n2 bitmap].
Notation prove5 parent bitmap mx := (prove (H := unit) gen gen None (Z.of_nat 3) (b5 1 keys5) (ts5 parent bitmap ++ [t7 n2]) mx).
Lemma shaped5 parent bitmap d : 0 <= parent < 256 -> (length bitmap <= 256)%nat -> steps_shaped gen of2 to2 (ts5 parent bitmap) d (t7 n2).
Proof.
  intros R L. split; [|intros _; apply keys_good]. assert (256 < p) by reflexivity. constructor; [split; [apply good6, R|cbn [t_bitmap t6]; lia]|]. constructor; [split; [exact good7|cbn [t_bitmap t7 length]; lia]|constructor].
Qed.
Lemma made parent bitmap mx : (2 <= mx)%nat -> exists w, prove5 parent bitmap mx = Ok w.
Proof. intros L. unfold prove. rewrite ProverProofs.updates_ok by (cbn; lia). cbn [rbind]. rewrite ProverProofs.signature_ok by (cbn; lia). cbn [rbind]. eauto. Qed.
Lemma all_go debug parent bitmap d : length bitmap = 3%nat -> Forall (goes gen of1 to2 fq_sqrt ped_one true debug 3) (steps_of gen 3 (ts5 parent bitmap) d (t7 n2)).
Proof.
  intros L. unfold steps_of. cbn [map app]. constructor; [eapply goes3; [reflexivity|apply hash6|exact L]|]. apply Forall_app. split.
  - apply Forall_forall. intros s I. apply repeat_spec in I. subst s. eapply goes3; [reflexivity|exact hash0|reflexivity].
  - constructor; [|constructor]. eapply goes3; [reflexivity|exact hash7|reflexivity].
Qed.
Lemma p_of : Z.of_nat 3 < p. Proof. reflexivity. Qed.
Notation circ5 pin debug := (generate_constraints e5 gen gen of1 of2 to1 to2 fq_sqrt ped_one true pin debug (fun (_ : unit) _ => true)).
(** Completed: an honest chain with one dummy, and the same chain with a wrong parent entropy, for which the public
    inputs are the native ones all the same. *)
Example honest_completes : forall pin debug, exists w inputs, prove5 9 [true; false; true] 3 = Ok w /\ prover (circ5 pin debug w) = Val (inputs, true).
Proof.
  intros pin debug. destruct (made 9 [true; false; true] 3) as (w & W); [lia|]. exists w.
  destruct (C65_completes z5_grp z5_grp z5_grp e5 gen gen of1 of2 to1 to2 fq_sqrt ped_one true pin debug unit (fun _ _ => true) 3 (b5 1 keys5) (ts5 9 [true; false; true]) (t7 n2) 3 None w
    fq_sqrt_ok eq_refl of1_neg gen_nz p_of signatures_good (good5 1 n2 n3 n4 ltac:(lia)) (shaped5 9 [true; false; true] 1 ltac:(lia) ltac:(cbn; lia)) W (all_go debug 9 [true; false; true] 1 eq_refl)) as (inputs & sat & R & I & _).
  exists inputs. split; [exact W|]. rewrite R. do 2 f_equal. apply I. clear. destruct (hash_some _ _ _ _ (hash6 9)) as (c6 & H6). destruct (hash_some _ _ _ _ hash7) as (c7 & H7).
  exists ([(n2, n1); (n1, n1); (n3, n4)] : list (z5_grp * z5_grp)). split; [|split; [discriminate|split; [exact sum7|reflexivity]]]. unfold steps_of. cbn [map app length Nat.sub repeat t_block t_bitmap t6 t7].
  eapply (valid_real gen gen) with (signing := [n2; n4] : list z5_grp); [reflexivity|reflexivity| |discriminate|exact H6|].
  { split; [signers_solve|]. split; [not_in|]. cbn. lia. }
  eapply (valid_dummy gen gen) with (signing := [n4; n2; n2] : list z5_grp); [reflexivity| |].
  { split; [signers_solve|]. split; [not_in|]. cbn. lia. }
  eapply (valid_real gen gen) with (signing := [n2; n2] : list z5_grp); [reflexivity|reflexivity| |discriminate|exact H7|constructor].
  split; [signers_solve|]. split; [not_in|]. cbn. lia.
Qed.
Example unlinked_completes : forall pin debug, exists w inputs, prove5 200 [true; false; true] 2 = Ok w /\ prover (circ5 pin debug w) = Val (inputs, false) /\
  public_inputs (coords_of to2) gsum gen blake2_out (b5 1 keys5) b7 = Ok (Some (map fqv inputs)).
Proof.
  intros pin debug. destruct (made 200 [true; false; true] 2) as (w & W); [lia|]. exists w.
  destruct (C65_completes z5_grp z5_grp z5_grp e5 gen gen of1 of2 to1 to2 fq_sqrt ped_one true pin debug unit (fun _ _ => true) 3 (b5 1 keys5) (ts5 200 [true; false; true]) (t7 n2) 2 None w
    fq_sqrt_ok eq_refl of1_neg gen_nz p_of signatures_good (good5 1 n2 n3 n4 ltac:(lia)) (shaped5 200 [true; false; true] 0 ltac:(lia) ltac:(cbn; lia)) W (all_go debug 200 [true; false; true] 0 eq_refl)) as (inputs & sat & R & I & P).
  exists inputs. split; [exact W|]. split; [|apply P; [discriminate|exact sum7]]. rewrite R. do 2 f_equal. destruct sat; [|reflexivity]. destruct (proj1 I eq_refl) as (pairs & V & _). clear - V.
  inversion V as [|? ? ? signing H c ? rest ? Ix L|? ? ? signing ? rest ? Ix]; subst; [|discriminate Ix]. specialize (L entropy_in_use). discriminate L.
Qed.
(** Stopped. *)
Notation stop5 r pin debug parent bitmap := (exists w, prove5 parent bitmap 2 = Ok w /\ prover (circ5 pin debug w) = r).
Lemma stopped pin debug bitmap r : (length bitmap <= 256)%nat -> stops gen of1 to2 fq_sqrt ped_one true debug 3 (b6 9, bitmap) r -> stop5 (failure r) pin debug 9 bitmap.
Proof.
  intros L S. destruct (made 9 bitmap 2) as (w & W); [lia|]. exists w. split; [exact W|].
  exact (C65_stops z5_grp z5_grp z5_grp e5 gen gen of1 of2 to1 to2 fq_sqrt ped_one true pin debug unit (fun _ _ => true) 3 (b5 1 keys5) (ts5 9 bitmap) (t7 n2) 2 None w [] _ _ r
    fq_sqrt_ok eq_refl of1_neg p_of (good5 1 n2 n3 n4 ltac:(lia)) (shaped5 9 bitmap 0 ltac:(lia) L) W eq_refl (Forall_nil _) S).
Qed.
Example short_bitmap : forall pin debug, stop5 Panics pin debug 9 [true; true].
Proof. intros pin debug. destruct (hash_some _ _ _ _ (hash6 9)) as (c & E). apply (stopped pin debug _ Panics); [cbn; lia|]. eapply stops_length; [reflexivity|exact E|discriminate|discriminate]. Qed.
Example no_bitmap : forall pin debug, stop5 (Fails MissingCS) pin debug 9 [].
Proof. intros pin debug. destruct (hash_some _ _ _ _ (hash6 9)) as (c & E). apply (stopped pin debug _ (Fails MissingCS)); [cbn; lia|]. eapply stops_empty; [reflexivity|exact E]. Qed.
Example many_absent : forall pin, stop5 Panics pin true 9 (repeat false 256).
Proof. intros pin. destruct (hash_some _ _ _ _ (hash6 9)) as (c & E). apply (stopped pin true _ Panics); [rewrite repeat_length; lia|]. eapply stops_count; [reflexivity|exact E|reflexivity|vm_compute; discriminate]. Qed.
Definition t7_two : transition z5_grp z5_grp :=
  mk_transition (mk_block 7 0 (ent 11) (ent 10) 1 2 [n4; n3] : epoch_block z5_grp) (n2 : z5_grp) [false; true; true].
(** a second block with two validators, after a first that goes on *)
Example fewer_keys : forall pin debug,
  exists w, prove (H := unit) gen gen None (Z.of_nat 3) (b5 1 keys5) (ts5 9 [true; false; true] ++ [t7_two]) 2 = Ok w /\ prover (circ5 pin debug w) = Panics.
Proof.
  intros pin debug. assert (exists w, prove (H := unit) gen gen None (Z.of_nat 3) (b5 1 keys5) (ts5 9 [true; false; true] ++ [t7_two]) 2 = Ok w) as (w & W).
  { unfold prove. rewrite ProverProofs.updates_ok by (cbn; lia). cbn [rbind]. rewrite ProverProofs.signature_ok by (cbn; lia). cbn [rbind]. eauto. }
  exists w. split; [exact W|].
  apply (C65_stops z5_grp z5_grp z5_grp e5 gen gen of1 of2 to1 to2 fq_sqrt ped_one true pin debug unit (fun _ _ => true) 3 (b5 1 keys5) (ts5 9 [true; false; true]) t7_two 2 None w [(b6 9, [true; false; true])] (t_block t7_two, t_bitmap t7_two) [] Panics);
    try exact fq_sqrt_ok; try exact of1_neg; try exact p_of; try reflexivity; try exact W.
  - apply good5. lia.
  - split; [|intros _; apply keys_good]. assert (256 < p) by reflexivity. constructor; [split; [apply good6; lia|cbn; lia]|]. constructor; [|constructor]. split; [|cbn; lia]. cbn [eb_keys t_block t7_two length]. good_solve.
  - constructor; [|constructor]. eapply goes3; [reflexivity|apply hash6|reflexivity].
  - apply stops_keys. discriminate.
Qed.
(** a map of points to the group under which nothing has a hash, and a Pedersen hash that is undefined *)
Definition of_nothing (P : apoint fq) : z5_grp := n0.
Lemma smul_nothing k : smul k (n0 : z5_grp) = n0.
Proof. exact (smul_gz (G := z5_grp) k). Qed.
Example no_hash : forall pin debug, exists w, prove5 9 [true; false; true] 2 = Ok w /\
  prover (generate_constraints e5 gen gen of_nothing of2 to1 to2 fq_sqrt ped_one true pin debug (fun (_ : unit) _ => true) w) = Fails Unsatisfiable.
Proof.
  intros pin debug. destruct (made 9 [true; false; true] 2) as (w & W); [lia|]. exists w. split; [exact W|].
  apply (C65_stops z5_grp z5_grp z5_grp e5 gen gen of_nothing of2 to1 to2 fq_sqrt ped_one true pin debug unit (fun _ _ => true) 3 (b5 1 keys5) (ts5 9 [true; false; true]) (t7 n2) 2 None w [] (b6 9, [true; false; true]) [(b7, [false; true; true])] (Fails Unsatisfiable)
    fq_sqrt_ok eq_refl (fun _ => eq_refl) p_of (good5 1 n2 n3 n4 ltac:(lia)) (shaped5 9 [true; false; true] 0 ltac:(lia) ltac:(cbn; lia)) W eq_refl (Forall_nil _)).
  apply stops_hash with (er := HashToCurveError); [reflexivity|]. unfold hash_block, encode_inner_to_bytes_cip22. destruct (encode_inner_to_bits_cip22 (coords_of to2) gen (b6 9)) as [l1 l2]. rewrite !bits_be_to_bytes_le_ok. cbn [rbind].
  apply C25_g1_cip22_failure; [|exact fq_sqrt_ok|].
  - apply composite_bytes. intros m' out E'. unfold native_ped, ped_one in E'. apply ok_inj in E'. subst out. apply le_bytes_is_bytes.
  - right. exists (le_bytes 48 1). split; [reflexivity|]. right. split; [reflexivity|]. intros c _. eexists. split; [apply (xof_bytes_ok SIG_DOMAIN _ (Nat.le_refl 8))|]. split.
    + match goal with |- context [length (xof_bytes ?d ?m)] => destruct (xof_len m) as [-> _] end. lia.
    + intros P (Q & _ & -> & X). apply X. apply smul_nothing.
Qed.
Example no_pedersen : forall pin debug, exists w, prove5 9 [true; false; true] 2 = Ok w /\
  prover (generate_constraints e5 gen gen of1 of2 to1 to2 fq_sqrt (fun _ => None) true pin debug (fun (_ : unit) _ => true) w) = Panics.
Proof.
  intros pin debug. destruct (made 9 [true; false; true] 2) as (w & W); [lia|]. exists w. split; [exact W|].
  apply (C65_stops z5_grp z5_grp z5_grp e5 gen gen of1 of2 to1 to2 fq_sqrt (fun _ => None) true pin debug unit (fun _ _ => true) 3 (b5 1 keys5) (ts5 9 [true; false; true]) (t7 n2) 2 None w [] (b6 9, [true; false; true]) [(b7, [false; true; true])] Panics
    fq_sqrt_ok eq_refl of1_neg p_of (good5 1 n2 n3 n4 ltac:(lia)) (shaped5 9 [true; false; true] 0 ltac:(lia) ltac:(cbn; lia)) W eq_refl (Forall_nil _)).
  apply stops_long; [reflexivity|]. unfold hash_block, encode_inner_to_bytes_cip22. destruct (encode_inner_to_bits_cip22 (coords_of to2) gen (b6 9)) as [l1 l2]. rewrite !bits_be_to_bytes_le_ok. reflexivity.
Qed.
