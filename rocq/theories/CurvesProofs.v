(** Proofs for C67. *)
From Verif Require Import Base Constants Group Field Curve BitsModel EncodingModel EncodingSpec Blake2 HasherModel PointModel HashCurveModel HashCurveSpec CodecSpec
  Circuit GadgetModel GadgetSpec GadgetProofs HashGadgetModel HashGadgetSpec HashGadgetNative EpochCircuitModel EpochSpec EpochCircuitSpec EpochProofs ProverModel ProverSpec PropProver FfiModel FfiSpec FfiDataProofs PropFfi
  HelperModel SetupModel ShapeSpec LightSpec PropLight PropSetup CurveGroups CurvesSpec.

Lemma curves_good : g1_of None = gz /\ negation_law g1_of /\ g2_gen <> gz /\ (forall s, good_signature g1_of g1_to s) /\ (forall s, on_g1_point g1_of s) /\
  (forall K, good_key g2_of g2_to K) /\ (forall P, on_twist P = true -> good_key g2_of g2_to (g2_of P) /\ g2_to (g2_of P) = P).
Proof.
  split; [apply g1_of_none|]. split; [exact g1_of_neg|]. split; [exact g2_gen_nz|]. split; [|split; [|split]].
  - intros s. split; [apply g1_to_on|apply g1_of_to].
  - intros s. exists (g1_to s). split; [apply g1_to_on|symmetry; apply g1_of_to].
  - intros K. split; [apply g2_to_on|apply g2_of_to].
  - intros P H. split; [split; [apply g2_to_on|apply g2_of_to]|apply g2_to_of, H].
Qed.

(** ** The encodings *)
Lemma flat_keys (l : list g2_curve) : flat_map (encode_public_key (coords_of g2_to)) l = flat_map (encode_public_key g2_coords) (map g2_to l).
Proof. induction l as [|P l IH]; [reflexivity|]. cbn [flat_map map]. rewrite IH. reflexivity. Qed.
Lemma keys_padded b : encode_keys_padded (coords_of g2_to) g2_gen b = encode_keys_padded g2_coords g2_generator (raw b).
Proof.
  unfold encode_keys_padded. cbn [raw eb_keys eb_max_validators]. rewrite map_length, flat_keys.
  assert (E : encode_public_key (coords_of g2_to) g2_gen = encode_public_key g2_coords g2_generator) by (unfold encode_public_key, coords_of; rewrite g2_to_gen; reflexivity).
  rewrite E. reflexivity.
Qed.
Lemma bits_raw b t : encode_to_bits_cip22 (coords_of g2_to) g2_gen b t = encode_to_bits_cip22 g2_coords g2_generator (raw b) t.
Proof. unfold encode_to_bits_cip22. rewrite keys_padded. reflexivity. Qed.
Lemma signed_raw b : encode_inner_to_bytes_cip22 (coords_of g2_to) g2_gen b = enc_signed (raw b).
Proof. unfold enc_signed, encode_inner_to_bytes_cip22, encode_inner_to_bits_cip22. rewrite keys_padded. reflexivity. Qed.
Lemma first_raw b : encode_first_epoch_to_bytes_cip22 (coords_of g2_to) g2_gen b = enc_first (raw b).
Proof. unfold enc_first, encode_first_epoch_to_bytes_cip22. rewrite bits_raw. reflexivity. Qed.
Lemma last_raw b : encode_last_epoch_to_bytes_with_aggregated_pk_cip22 (coords_of g2_to) gsum g2_gen b = enc_last (raw b).
Proof.
  unfold enc_last, encode_last_epoch_to_bytes_with_aggregated_pk_cip22, encode_last_to_bits_with_agg. rewrite bits_raw.
  unfold encode_public_key at 1, coords_of. rewrite g2_to_sum. reflexivity.
Qed.
Lemma inputs_raw b l : public_inputs (coords_of g2_to) gsum g2_gen blake2_out b l = public_inputs g2_coords g2_sum g2_generator blake2_out (raw b) (raw l).
Proof.
  unfold public_inputs, hash_first_last_epoch_block, blake2_first_epoch, blake2_last_epoch. rewrite first_raw, last_raw. reflexivity.
Qed.

Section Whole.
  Context (GT : grp) (e : g1_curve -> g2_curve -> GT) (sqrt : fq -> option fq) (ped : bytes -> option fq) (compat debug : bool).
  Context (P V key_e key_h R : Type) (vk_of : key_h -> V) (default_proof : P) (helper_verify : P * V -> list (list bool) -> bool).
  Context (sqrt2 : fq2 -> option fq2) (in_subgroup : fq2 * fq2 -> bool) (vkey proof : Type) (vkd : bytes -> result vkey) (pd : bytes -> result proof) (vp : vkey -> proof -> list Z -> result bool).
  Context (vk_of_e : key_e -> vkey).
  Notation circuit pin := (generate_constraints e g1_gen g2_gen g1_of g2_of g1_to g2_to sqrt ped compat pin debug helper_verify).
  Notation chain := (honest e g2_gen g2_of g2_to (block_hash g2_gen g1_of g2_to sqrt ped compat)).
  Notation padding := (padding_ok g2_gen g1_of g2_of g2_to sqrt ped compat).
  Notation verify_c := (ffi_verify sqrt2 in_subgroup vkd pd vp blake2_out).

  Lemma chain_sizes hash l n b ts : length (eb_keys b) = n -> honest e g2_gen g2_of g2_to hash l n b ts ->
    Forall (fun t => length (eb_keys (t_block t)) = n /\ length (t_bitmap t) = n) ts.
  Proof.
    intros L H. revert L. induction H as [|b t ts signing H G I E S N Z M M' HH Vf _ IH]; intros L; constructor; [|apply IH; apply G].
    split; [apply G|]. rewrite (signers_length _ _ _ S). exact L.
  Qed.
  Lemma last_good hash l n b ts t : honest e g2_gen g2_of g2_to hash l n b (ts ++ [t]) -> good_block g2_of g2_to n (t_block t).
  Proof.
    revert b. induction ts as [|u ts IH]; intros b H; cbn [app] in H; inversion H; subst; [assumption|]. eapply IH; eassumption.
  Qed.
  Lemma ffi_round b : sqrt_spec q2mul sqrt2 -> good_block g2_of g2_to (length (eb_keys b)) b -> Z.of_nat (length (eb_keys b)) * 96 < 2 ^ 64 ->
    Forall (valid_key in_subgroup) (map g2_to (eb_keys b)) -> epoch_block_try_from sqrt2 in_subgroup (as_ffi (raw b)) = Ok (raw b).
  Proof.
    intros HS G L Vk. unfold as_ffi. rewrite <- (app_nil_r (serialize_pubkeys _)). apply C53_block_round_trip; try assumption.
    - intros x E. cbn [raw eb_epoch_entropy] in E. destruct G as (_ & G & _). rewrite E in G. apply G.
    - intros x E. cbn [raw eb_parent_entropy] in E. destruct G as (_ & _ & G & _). rewrite E in G. apply G.
    - cbn [raw eb_keys]. rewrite map_length. exact L.
  Qed.
  Lemma accepted pin create n k m rng hs vs (flag : bool) q (rng' : R) create_h vk b ts t :
    linear_at e g2_gen -> sqrt_spec qmul sqrt -> sqrt_spec q2mul sqrt2 -> Z.of_nat n < 2 ^ 32 ->
    complete_groth (circuit pin) vs vk_of_e create pd vp ->
    trusted_setup vk_of default_proof hs vs n k m rng flag = Val (q, rng') -> vkd vk = Ok (vk_of_e (p_epochs q)) ->
    good_block g2_of g2_to n b -> chain (has_entropy b) n b (ts ++ [t]) -> sum (eb_keys (t_block t)) <> gz ->
    (length (ts ++ [t]) <= k)%nat -> ((length (ts ++ [t]) < k)%nat -> padding n (last_block b ts)) ->
    match p_hash_to_bits q with None => True | Some key => exists pr, create_h key (ts ++ [t]) = Ok pr end ->
    Forall (valid_key in_subgroup) (map g2_to (eb_keys b)) -> Forall (valid_key in_subgroup) (map g2_to (eb_keys (t_block t))) ->
    exists w bytes, prove g1_gen g2_gen (helper_of vk_of create_h q) (Z.of_nat n) b (ts ++ [t]) k = Ok w /\ create (p_epochs q) w = Ok bytes /\
      verify_c vk bytes (as_ffi (raw b)) (as_ffi (raw (t_block t))) = Returns true None.
  Proof.
    intros B Hs Hs2 Hn CG U D G HO NZ L PD HH Vk Vk'.
    destruct curves_good as (Z & N & Hg & GS & _).
    assert (Hp : Z.of_nat n < p) by (assert (2 ^ 32 < p) by (vm_compute; reflexivity); lia).
    assert (Ec : exists c, g2_to (sum (eb_keys (t_block t))) = Some c).
    { destruct (g2_to (sum (eb_keys (t_block t)))) as [c|] eqn:E; [eauto|]. exfalso. apply NZ. apply g2_to_inj. rewrite E. reflexivity. }
    destruct (C46_complete g1_curve g2_curve GT e g1_gen g2_gen g1_of g2_of g1_to g2_to sqrt ped compat pin debug (P * V) helper_verify n b ts t k (helper_of vk_of create_h q)
      Hs Z N Hg Hp B GS G HO Ec L PD) as (w & inputs & PR & _ & RUN & _ & IN).
    { unfold helper_of. destruct (p_hash_to_bits q) as [key|]; cbn [option_map]; [|exact I]. destruct HH as (pr & ->). cbn [rbind]. eauto. }
    assert (LB : length (eb_keys b) = n) by apply G.
    destruct (C63_setup g1_curve g2_curve GT e g1_gen g2_gen g1_of g2_of g1_to g2_to sqrt ped compat pin debug P V key_e key_h R vk_of default_proof helper_verify
      n k m rng hs vs flag q rng' create_h b (ts ++ [t]) w Hn U LB (chain_sizes _ _ _ _ _ LB HO) PR) as (w0 & r0 & GEN & SM & _).
    destruct (CG w0 r0 (p_epochs q) rng' w inputs GEN SM RUN) as (by_ & pr & CR & PD' & OKV).
    exists w, by_. split; [exact PR|]. split; [exact CR|].
    pose proof (last_good _ _ _ _ _ _ HO) as Gt. assert (Lt : length (eb_keys (t_block t)) = n) by apply Gt.
    unfold ffi_verify, snark_verify. rewrite ffi_round; [|assumption|rewrite LB; exact G|rewrite LB; lia|exact Vk]. cbn [rbind].
    rewrite ffi_round; [|assumption|rewrite Lt; exact Gt|rewrite Lt; lia|exact Vk']. cbn [rbind].
    rewrite D. cbn [rbind]. rewrite PD'. cbn [rbind]. rewrite <- inputs_raw, IN. cbn [rbind]. rewrite OKV. reflexivity.
  Qed.

  (** Keys that C handed over are points of the twist. *)
  Lemma same_key_points (K : g2_curve) Q : on_twist Q = true -> (same_key g2_of K Q <-> g2_to K = Q \/ (undetermined (snd (g2_coords (g2_neg Q))) /\ g2_to K = g2_neg Q)).
  Proof.
    intros H. unfold same_key. assert (H' : on_twist (g2_neg Q) = true) by (apply (ec_neg_on fq2 q2_0 q2_1 q2add q2mul q2sub q2opp q2div q2inv q2eqb TWIST_B fq2_field q2eqb_spec), H).
    split; (intros [E|[U E]]; [left|right; split; [exact U|]]); rewrite ?E, ?g2_to_of by assumption; try reflexivity; rewrite <- E; symmetry; apply g2_of_to.
  Qed.
  Lemma padded_on f : wf_block f -> Forall (fun Q => on_twist Q = true) (padded_keys f).
  Proof.
    intros (_ & _ & _ & K). rewrite forallb_forall in K. apply Forall_forall. intros Q I. apply in_app_or in I as [I|I]; [exact (K Q I)|].
    apply repeat_spec in I as ->. exact g2_generator_on.
  Qed.
  Lemma consecutive n k m rng hs vs q (rng' : R) vk pf first last :
    linear_at e g2_gen -> sqrt_spec q2mul sqrt2 -> Z.of_nat n < 2 ^ 32 -> (0 < k)%nat -> Z.of_nat k < 2 ^ 16 ->
    (forall w0 r0 key r1, vs w0 r0 = Val (key, r1) -> sound_for (fun pr inputs => vp (vk_of_e key) pr inputs = Ok true) (holds (circuit true w0))) ->
    trusted_setup vk_of default_proof hs vs n k m rng false = Val (q, rng') -> vkd vk = Ok (vk_of_e (p_epochs q)) ->
    c_block first -> c_block last -> verify_c vk pf first last = Returns true None ->
    exists f l (h0 hl : header g2_curve), epoch_block_try_from sqrt2 in_subgroup first = Ok f /\ epoch_block_try_from sqrt2 in_subgroup last = Ok l /\
      (collides (first_bits h0) (enc_first f) \/ (exists agg, sums_to g2_to hl agg /\ collides (closing_bits hl ++ agg) (enc_last l)) \/
       (shows_first g2_of h0 f /\ shows_last g2_of hl l /\
        (eb_index l = (eb_index f + 1) mod 2 ^ 16 ->
         exists s H signing, hashes_to g1_of (native_ped ped) compat hl H /\ e s g2_gen = e H (sum signing) /\ sum signing <> gz /\
           Forall (fun K => g2_to K <> g2_generator /\ exists Q, In Q (padded_keys f) /\ on_twist Q = true /\
             (g2_to K = Q \/ (undetermined (snd (g2_coords (g2_neg Q))) /\ g2_to K = g2_neg Q))) signing /\
           Z.of_nat (length (padded_keys f)) - fqv (h_max h0) <= Z.of_nat (length signing) /\ fqv (h_max h0) mod 2 ^ 32 = eb_max_non_signers f))).
  Proof.
    intros B Hs2 Hn Hk Hk' SO U D CF CL X.
    destruct (C63_certifies g1_curve g2_curve GT e g1_gen g2_gen g1_of g2_of g1_to g2_to sqrt ped compat debug P V key_e key_h R vk_of default_proof helper_verify
      sqrt2 in_subgroup vkey proof vkd pd vp vk_of_e n k m rng hs vs q rng' vk pf first last B g2_gen_nz Hs2 Hn Hk SO U D CF CL X) as (f & l & h0 & l' & hl & pairs & s & EF & EL & LE & CE & SF & SL).
    exists f, l, h0, hl. split; [exact EF|]. split; [exact EL|]. destruct SF as [SF|SF]; [|left; exact SF]. destruct SL as [SL|SL]; [|right; left; exact SL].
    right. right. split; [exact SF|]. split; [exact SL|]. intros IX.
    destruct (C62_one_transition g1_curve g2_curve GT e g2_gen g1_of g2_of ped compat n h0 l' hl pairs s f l B CE SF SL ltac:(lia) IX) as (_ & H & signing & HH & ES & NZ & FS & LS).
    exists s, H, signing. split; [exact HH|]. split; [exact ES|]. split; [exact NZ|]. split; [|split; [exact LS|apply SF]].
    pose proof (padded_on f (LightProofs.c_block_wf sqrt2 in_subgroup first f Hs2 CF EF)) as ON. rewrite Forall_forall in ON.
    revert FS. apply Forall_impl. intros K [NG (Q & I & SK)]. split.
    - intros E. apply NG. apply g2_to_inj. rewrite g2_to_gen. exact E.
    - exists Q. split; [exact I|]. split; [exact (ON Q I)|]. apply same_key_points; [exact (ON Q I)|exact SK].
  Qed.
End Whole.
