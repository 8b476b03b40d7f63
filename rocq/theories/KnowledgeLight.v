(** Proofs for C77: from assignments to accepted calls. *)
From Coq Require Import Znumtheory.
From Verif Require Import Base Constants Group Field Curve BitsModel EncodingModel EncodingSpec Blake2 HasherModel PointModel HashCurveModel HashCurveSpec CodecSpec
  Circuit GadgetModel GadgetSpec GadgetProofs HashGadgetModel HashGadgetSpec HashGadgetNative EpochCircuitModel EpochSpec EpochCircuitSpec EpochProofs EpochChainProofs ProverModel ProverSpec PropProver FfiModel FfiSpec FfiDataProofs PropFfi
  HelperModel SetupModel ShapeSpec LightSpec PropEpoch PropLight PropSetup CurveGroups CurvesSpec CurvesProofs CurveFinite CurveOrder CurveCount TwistOrder TwistCount OrderSpec OrderProofs TwistSpec TwistProofs
  SecretSpec SecretProofs LightProofs SetupProofs EpochCircuitProofs BatchProofs KnowledgeSpec KnowledgeProofs.

(** ** Without the dummies *)
Lemma sum_repeat {G : grp} (P : G) d : sum (repeat P d) = smul (Z.of_nat d) P.
Proof.
  induction d as [|d IH]; [reflexivity|]. rewrite Nat2Z.inj_succ. cbn [repeat sum fold_right]. fold (sum (repeat P d)). rewrite IH, smul_succ. apply ga_comm.
Qed.
Section Light.
  Context {E1 E2 GT : grp} (e : E1 -> E2 -> GT) (gen1 : E1) (gen2 : E2).
  Context (of1 : apoint fq -> E1) (of2 : apoint fq2 -> E2) (to1 : E1 -> apoint fq) (to2 : E2 -> apoint fq2).
  Context (sqrt : fq -> option fq) (ped : bytes -> option fq) (compat debug : bool).
  Context {HP : Type} (helper_verify : HP -> list (list bool) -> bool).
  Notation circuit := (generate_constraints e gen1 gen2 of1 of2 to1 to2 sqrt ped compat true debug helper_verify).
  Notation cert := (certified e gen2 (opens_to of2) (hashes_to of1 (native_ped ped) compat)).
  Lemma sat_statement n (w : validator_set_update E1 E2 HP) tape inputs : gen2 <> gz -> sizes n w -> satisfies (circuit w) tape inputs ->
    exists h0 headers last pairs s, length (headers ++ [last]) = length (vsu_epochs w) /\
      epoch_assignment e gen1 gen2 to2 (opens_to of2) (hashes_in of1 ped compat (constrained w)) (on_g1_point of1) (h_entropy h0 <> q0) n inputs h0 headers last pairs s /\
      contains_header of2 tape h0 /\ Forall (contains_header of2 tape) (headers ++ [last]) /\ contains_g1 of1 tape s.
  Proof.
    intros Hg SZ H. destruct (sat_circuit e gen1 gen2 of1 of2 to1 to2 sqrt ped compat debug helper_verify n w tape inputs Hg SZ H) as (h0 & hs & last & pairs & s & L & A & K).
    exists h0, hs, last, pairs, s. split; [exact L|]. split; [|exact K]. revert A. apply assignment_mono.
    - intros P b. apply opens_pinned.
    - unfold hashes_in. intros h P. destruct (constrained w); [apply hashes_pinned|apply hashes_free].
    - intros P. apply point_pinned.
    - tauto.
  Qed.
  Lemma sat_certifies n (w : validator_set_update E1 E2 HP) tape inputs : linear_at e gen2 -> gen2 <> gz -> sizes n w -> vsu_helper w = None -> satisfies (circuit w) tape inputs ->
    exists h0 hs last pairs s d, (length (hs ++ [last]) + d = length (vsu_epochs w))%nat /\ cert n h0 (hs ++ [last]) pairs (ga s (gn (smul (Z.of_nat d) gen1))) /\ edges to2 inputs h0 last /\
      contains_header of2 tape h0 /\ Forall (contains_header of2 tape) (hs ++ [last]) /\ contains_g1 of1 tape s.
  Proof.
    intros [B1 B2] Hg SZ HN H. destruct (sat_statement n w tape inputs Hg SZ H) as (h0 & hs & last & pairs & s & L & (W & C & N & _ & SG & D) & K0 & KH & KS).
    unfold constrained in C. rewrite HN in C. cbn [hashes_in] in C.
    pose proof (chain_covered _ _ _ _ _ _ _ _ _ _ C) as (real & CV & PM).
    pose proof (chain_wf _ _ _ _ _ _ _ _ _ _ C) as CW. pose proof (chain_counted _ _ _ _ _ _ _ _ _ _ C) as CC. pose proof (real_index (hs ++ [last])) as RI.
    set (d := (length (hs ++ [last]) - length (real_headers (hs ++ [last])))%nat) in PM.
    pose proof (real_length (hs ++ [last])) as LE.
    assert (CL : h_entropy h0 <> q0 -> linked_from (h_entropy h0) (real_headers (hs ++ [last]))) by (intros X; apply (chain_linked _ _ _ _ _ _ _ _ _ _ X C)).
    exists h0, (real_headers hs), last, real, s, d. rewrite <- real_snoc by exact N.
    split; [unfold d; rewrite <- L; lia|]. split; [|split; [exact D|split; [exact K0|split; [|exact KS]]]].
    - split; [constructor; assumption|].
      split; [apply no_wrap; [exact CC|exact RI]|]. split; [exact CL|]. split; [exact CV|].
      apply (signed_more e gen1 gen2 B1 _ real pairs d B2 PM). rewrite sum_repeat, <- ga_assoc, gn_l. rewrite ga_comm, ga_0_l. exact SG.
    - unfold real_headers. apply Forall_forall. intros h I. apply filter_In in I as [I _]. rewrite Forall_forall in KH. exact (KH h I).
  Qed.
  Context (sqrt2 : fq2 -> option fq2) (in_subgroup : fq2 * fq2 -> bool).
  Context {vkey proof : Type} (vkd : bytes -> result vkey) (pd : bytes -> result proof) (vp : vkey -> proof -> list Z -> result bool) (extract : proof -> list Z -> list cell).
  Lemma verified_known n (w : validator_set_update E1 E2 HP) v vk pf first last : linear_at e gen2 -> gen2 <> gz -> sqrt_spec q2mul sqrt2 -> sizes n w -> vsu_helper w = None ->
    extractable (fun q inputs => vp v q inputs = Ok true) (circuit w) extract ->
    c_block first -> c_block last -> vkd vk = Ok v ->
    ffi_verify sqrt2 in_subgroup vkd pd vp blake2_out vk pf first last = Returns true None ->
    exists f l q inputs h0 hs hl pairs s d, epoch_block_try_from sqrt2 in_subgroup first = Ok f /\ epoch_block_try_from sqrt2 in_subgroup last = Ok l /\ pd pf = Ok q /\
      public_inputs g2_coords g2_sum g2_generator blake2_out f l = Ok (Some inputs) /\
      (length (hs ++ [hl]) + d = length (vsu_epochs w))%nat /\ cert n h0 (hs ++ [hl]) pairs (ga s (gn (smul (Z.of_nat d) gen1))) /\
      contains_header of2 (extract q inputs) h0 /\ Forall (contains_header of2 (extract q inputs)) (hs ++ [hl]) /\ contains_g1 of1 (extract q inputs) s /\
      (shows_first of2 h0 f \/ collides (first_bits h0) (enc_first f)) /\
      (shows_last of2 hl l \/ exists agg, sums_to to2 hl agg /\ collides (closing_bits hl ++ agg) (enc_last l)).
  Proof.
    intros B Hg Hs SZ HN SND CF CL HV H. apply C58_verify_accepts in H as (f & l & v' & q & m1 & m2 & F & L & V & PD & E1' & E2' & A).
    rewrite HV in V. apply ok_inj in V. subst v'. apply SND in A as (xs & EX & HX). rewrite EX in HX.
    destruct (sat_certifies n w _ xs B Hg SZ HN HX) as (h0 & hs & hl & pairs & s & d & LE & C & ED & K0 & KH & KS).
    assert (HI : public_inputs g2_coords g2_sum g2_generator blake2_out f l = Ok (Some (map fqv xs))).
    { destruct (digests_exist blake2_out HasherProofs.blake2_out_length f l) as (m1' & m2' & D1 & D2 & D3). rewrite E1' in D1. rewrite E2' in D2.
      apply ok_inj in D1, D2. subst m1' m2'. rewrite D3, EX. reflexivity. }
    exists f, l, q, (map fqv xs), h0, hs, hl, pairs, s, d. split; [exact F|]. split; [exact L|]. split; [exact PD|]. split; [exact HI|]. split; [exact LE|]. split; [exact C|].
    split; [exact K0|]. split; [exact KH|]. split; [exact KS|].
    destruct (C44_digests E2 to2 xs h0 hl f l ED HI) as (agg & m3 & m4 & m5 & m6 & SA & X1 & X2 & X3 & Y1 & Y2 & Y3).
    destruct C as (W & _). inversion W as [|? ? W0 WL]; subst. apply Forall_app in WL as [_ WL]. inversion WL as [|? ? WL' _]; subst.
    split.
    - destruct (list_eq_dec Z.eq_dec m3 m5) as [->|NE]; [left|right; exists m3, m5; auto].
      apply (C44_first_shown E2 of2 n); [exact W0|exact (c_block_wf sqrt2 in_subgroup first f Hs CF F)|rewrite X1, X2; reflexivity].
    - destruct (list_eq_dec Z.eq_dec m4 m6) as [->|NE]; [left|right; exists agg; split; [exact SA|]; exists m4, m6; auto].
      eapply (C44_last_shown E2 of2 to2 n); [exact WL'|exact SA|exact (c_block_wf sqrt2 in_subgroup last l Hs CL L)|rewrite Y1, Y2; reflexivity].
  Qed.
End Light.

(** Two programs with the same constraints are satisfied by the same values. *)
Lemma same_sat {A} (c c' : circ A) : same c c' -> forall w x, satisfies c w x <-> satisfies c' w x.
Proof.
  induction 1 as [a|T h h' k k' S IH|b k k' S IH|er]; intros w x; cbn [satisfies]; [reflexivity| | |reflexivity].
  - split; intros (v & w' & E & H); exists v, w'; (split; [exact E|]); apply IH, H.
  - rewrite IH. reflexivity.
Qed.

(** ** On the curves *)
(** A number that takes every point to its part in G1. *)
Lemma to_g1 : exists c, (exists m, c = m * G1_COFACTOR) /\ forall T : g1_curve, smul r T = gz -> smul c T = T.
Proof.
  destruct (rel_prime_bezout r G1_COFACTOR cof_apart) as [u v E]. exists (v * G1_COFACTOR). split; [exists v; reflexivity|]. intros T K.
  rewrite <- (smul_1 T) at 2. rewrite <- E, smul_add, (smul_mul u r), K, smul_gz, ga_0_l. reflexivity.
Qed.
Lemma part c m (S T : g1_curve) : c = m * G1_COFACTOR -> smul c T = T -> same_in_g1 S T -> smul c S = T.
Proof. intros -> K E. unfold same_in_g1 in E. rewrite smul_mul, E, <- smul_mul. exact K. Qed.
Lemma same_minus (s A B : g1_curve) : same_in_g1 (ga s (gn B)) A -> same_in_g1 s (ga A B).
Proof.
  unfold same_in_g1. rewrite !smul_ga, smul_gn. intros E. rewrite <- E, <- ga_assoc, gn_l, ga_0_r. reflexivity.
Qed.
Lemma hash_in_g1 ped compat (h : header g2_curve) H : hashes_to g1_of ped compat h H -> smul r H = gz.
Proof.
  intros (message & extra & inner & digest & counter & _ & _ & _ & _ & _ & [(Q & _ & ->)|(_ & _ & ->)]); rewrite <- smul_mul; apply g1_kills.
Qed.
Lemma aggregate_in_g1 ped compat : forall l c ps, signed_chain (hashes_to g1_of ped compat) c l ps -> smul r (aggregate_of ps) = gz.
Proof.
  induction l as [|h l IH]; intros c [|[H sks] ps] S; cbn [signed_chain] in S; try contradiction.
  - apply smul_gz.
  - destruct S as (HH & _ & _ & S). apply hash_in_g1 in HH. apply IH in S. unfold aggregate_of in *. cbn [map sum fold_right]. fold (sum (map (fun '(H, sks) => smul (zsum sks) H) ps)).
    rewrite smul_ga, S, <- smul_mul, Z.mul_comm, smul_mul, HH, smul_gz. apply ga_0_l.
Qed.
(** Signatures exist for whatever keys of G2. *)
Lemma always_signed {GT : grp} (e : g1_curve -> g2_curve -> GT) pairs : curve_pairing e -> Forall (fun '(_, K) => in_g2 (g2_to K)) pairs -> exists s, signed e g2_gen s pairs.
Proof.
  intros B F. assert (exists l, Forall (fun '(_, k) => 0 <= k) l /\ pairs = map (fun '(H, k) => (H, smul k g2_gen)) l) as (l & N & ->).
  { induction F as [|[H K] pairs [sk S] _ (l & N & ->)]; [exists []; split; [constructor|reflexivity]|].
    apply secret_iff in S as [R ->]. exists ((H, sk) :: l). split; [constructor; [exact (proj1 R)|exact N]|reflexivity]. }
  exists (sum (map (fun '(H, k) => smul k H) l)). apply (curve_equation e B _ l N). reflexivity.
Qed.

Section Whole.
  Context (GT : grp) (e : g1_curve -> g2_curve -> GT) (sqrt : fq -> option fq) (ped : bytes -> option fq) (compat debug : bool).
  Context (P V key_e key_h R : Type) (vk_of : key_h -> V) (default_proof : P) (helper_verify : P * V -> list (list bool) -> bool).
  Context (sqrt2 : fq2 -> option fq2) (vkey proof : Type) (vkd : bytes -> result vkey) (pd : bytes -> result proof) (vp : vkey -> proof -> list Z -> result bool).
  Context (vk_of_e : key_e -> vkey) (extract : key_e -> proof -> list Z -> list cell).
  Notation circuit pin := (generate_constraints e g1_gen g2_gen g1_of g2_of g1_to g2_to sqrt ped compat pin debug helper_verify).
  Notation verify_c := (ffi_verify sqrt2 g2_test vkd pd vp blake2_out).
  Notation hashes := (hashes_to g1_of (native_ped ped) compat).

  Lemma known_secrets c (Hc : exists m, c = m * G1_COFACTOR) (Kc : forall T : g1_curve, smul r T = gz -> smul c T = T) n k m rng hs vs q (rng' : R) vk pf first last :
    curve_pairing e -> sqrt_spec q2mul sqrt2 -> Z.of_nat n < 2 ^ 32 -> (0 < k)%nat ->
    (forall w0 r0 key r1, vs w0 r0 = Val (key, r1) -> extractable (fun pr inputs => vp (vk_of_e key) pr inputs = Ok true) (circuit true w0) (extract key)) ->
    trusted_setup vk_of default_proof hs vs n k m rng false = Val (q, rng') -> vkd vk = Ok (vk_of_e (p_epochs q)) ->
    c_block first -> c_block last -> verify_c vk pf first last = Returns true None ->
    exists f l pr inputs (h0 hl : header g2_curve) hs s d, epoch_block_try_from sqrt2 g2_test first = Ok f /\ epoch_block_try_from sqrt2 g2_test last = Ok l /\ pd pf = Ok pr /\
      public_inputs g2_coords g2_sum g2_generator blake2_out f l = Ok (Some inputs) /\ (length (hs ++ [hl]) + d = k)%nat /\
      Forall (contains_header g2_of (extract (p_epochs q) pr inputs)) (h0 :: hs ++ [hl]) /\ contains_g1 g1_of (extract (p_epochs q) pr inputs) s /\
      (collides (first_bits h0) (enc_first f) \/ (exists agg, sums_to g2_to hl agg /\ collides (closing_bits hl ++ agg) (enc_last l)) \/
       (shows_first g2_of h0 f /\ shows_last g2_of hl l /\ eb_index l = (eb_index f + Z.of_nat (length (hs ++ [hl]))) mod 2 ^ 16 /\
        (Forall keys_in_g2 hs -> exists ps, signed_chain hashes (committee_of h0) (hs ++ [hl]) ps /\ smul c (ga s (gn (smul (Z.of_nat d) g1_gen))) = aggregate_of ps))).
  Proof.
    intros B Hs2 Hn Hk SO U D CF CL X.
    unfold trusted_setup, setup in U. destruct (vs (validator_set_update_empty default_proof n k m None) rng) as [[key r1]|er|] eqn:EV; try discriminate U. injection U as <- <-. cbn [p_epochs] in *.
    destruct (empty_sizes (E1 := g1_curve) (E2 := g2_curve) default_proof n k m (@None V) Hn Hk) as [SZ LK].
    destruct (verified_known e g1_gen g2_gen g1_of g2_of g1_to g2_to sqrt ped compat debug helper_verify sqrt2 g2_test vkd pd vp (extract key) n (validator_set_update_empty default_proof n k m None) (vk_of_e key) vk pf first last
      (pairing_linear e B) g2_gen_nz Hs2 SZ eq_refl (SO _ _ _ _ EV) CF CL D X) as (f & l & pr & inputs & h0 & l' & hl & pairs & s & d & EF & EL & PD & HI & LE & CE & K0 & KH & KS & SF & SL).
    rewrite LK in LE. exists f, l, pr, inputs, h0, hl, l', s, d. split; [exact EF|]. split; [exact EL|]. split; [exact PD|]. split; [exact HI|]. split; [exact LE|].
    split; [constructor; assumption|]. split; [exact KS|]. destruct SF as [SF|SF]; [|left; exact SF]. destruct SL as [SL|SL]; [|right; left; exact SL].
    right. right. split; [exact SF|]. split; [exact SL|].
    split; [exact (C62_distance g1_curve g2_curve GT e g2_gen g1_of g2_of ped compat n h0 l' hl pairs _ f l CE SF SL)|].
    intros F. destruct (certified_secrets GT e ped compat n h0 (l' ++ [hl]) pairs _ B CE (shown_in_g2 h0 f (read_in_g2 sqrt2 first f Hs2 CF EF) SF)) as (ps & SC & EQ).
    { rewrite removelast_last. exact F. }
    exists ps. split; [exact SC|]. destruct Hc as [m' Hc]. apply (part c m'); [exact Hc| |exact EQ]. apply Kc. exact (aggregate_in_g1 _ _ _ _ _ SC).
  Qed.
  Lemma known_consecutive c (Hc : exists m, c = m * G1_COFACTOR) (Kc : forall T : g1_curve, smul r T = gz -> smul c T = T) n k m rng hs vs q (rng' : R) vk pf first last :
    curve_pairing e -> sqrt_spec q2mul sqrt2 -> Z.of_nat n < 2 ^ 32 -> (0 < k)%nat -> Z.of_nat k < 2 ^ 16 ->
    (forall w0 r0 key r1, vs w0 r0 = Val (key, r1) -> extractable (fun pr inputs => vp (vk_of_e key) pr inputs = Ok true) (circuit true w0) (extract key)) ->
    trusted_setup vk_of default_proof hs vs n k m rng false = Val (q, rng') -> vkd vk = Ok (vk_of_e (p_epochs q)) ->
    c_block first -> c_block last -> verify_c vk pf first last = Returns true None ->
    exists f l pr inputs (h0 hl : header g2_curve) s, epoch_block_try_from sqrt2 g2_test first = Ok f /\ epoch_block_try_from sqrt2 g2_test last = Ok l /\ pd pf = Ok pr /\
      public_inputs g2_coords g2_sum g2_generator blake2_out f l = Ok (Some inputs) /\
      contains_header g2_of (extract (p_epochs q) pr inputs) h0 /\ contains_header g2_of (extract (p_epochs q) pr inputs) hl /\ contains_g1 g1_of (extract (p_epochs q) pr inputs) s /\
      (collides (first_bits h0) (enc_first f) \/ (exists agg, sums_to g2_to hl agg /\ collides (closing_bits hl ++ agg) (enc_last l)) \/
       (shows_first g2_of h0 f /\ shows_last g2_of hl l /\
        (eb_index l = (eb_index f + 1) mod 2 ^ 16 ->
         exists H sks, hashes hl H /\ smul c (ga s (gn (smul (Z.of_nat k - 1) g1_gen))) = smul (zsum sks) H /\ zsum sks mod r <> 0 /\
           Forall (fun sk => 0 <= sk < r /\ sk <> 1 /\ exists Q, In Q (padded_keys f) /\
             (g2_times sk g2_generator = Q \/ (undetermined (snd (g2_coords (g2_neg Q))) /\ g2_times sk g2_generator = g2_neg Q))) sks /\
           Z.of_nat (length (padded_keys f)) - fqv (h_max h0) <= Z.of_nat (length sks)))).
  Proof.
    intros B Hs2 Hn Hk Hk' SO U D CF CL X.
    destruct (known_secrets c Hc Kc n k m rng hs vs q rng' vk pf first last B Hs2 Hn Hk SO U D CF CL X) as (f & l & pr & inputs & h0 & hl & l' & s & d & EF & EL & PD & HI & LE & KH & KS & Y).
    exists f, l, pr, inputs, h0, hl, s. split; [exact EF|]. split; [exact EL|]. split; [exact PD|]. split; [exact HI|].
    split; [exact (Forall_inv KH)|]. split; [apply Forall_inv_tail in KH; apply Forall_app in KH as [_ KH]; exact (Forall_inv KH)|]. split; [exact KS|].
    destruct Y as [Y|[Y|(SF & SL & DI & Y)]]; [left; exact Y|right; left; exact Y|right; right]. split; [exact SF|]. split; [exact SL|]. intros IX.
    assert (L1 : length (l' ++ [hl]) = 1%nat).
    { rewrite IX in DI. assert (X1 : (Z.of_nat (length (l' ++ [hl])) - 1) mod 2 ^ 16 = 0).
      { replace (Z.of_nat (length (l' ++ [hl])) - 1) with (eb_index f + Z.of_nat (length (l' ++ [hl])) - (eb_index f + 1)) by lia.
        rewrite Zminus_mod, <- DI, Zminus_diag. reflexivity. }
      rewrite app_length in *. cbn [length] in *. rewrite Z.mod_small in X1 by lia. lia. }
    destruct l' as [|h1 l']; [|rewrite app_length in L1; cbn [length] in L1; lia]. cbn [app] in *.
    destruct (Y (Forall_nil _)) as (ps & SC & EQ). destruct ps as [|[H sks] ps]; cbn [signed_chain] in SC; [contradiction|].
    destruct SC as (HH & (bitmap & signing & QU & SK) & NZ & SC). destruct ps; [|contradiction].
    exists H, sks. split; [exact HH|]. split; [|split; [exact NZ|split]].
    - replace (Z.of_nat k - 1) with (Z.of_nat d) by (cbn [length] in LE; lia). rewrite EQ. unfold aggregate_of. cbn [map sum fold_right]. apply ga_0_r.
    - destruct (C44_enough_signers g2_curve g2_gen _ _ _ QU) as (_ & NI & SUB). destruct SF as (_ & _ & _ & FK).
      assert (SG : Forall (fun K => K <> g2_gen /\ exists Q, In Q (padded_keys f) /\ same_key g2_of K Q) signing).
      { apply Forall_forall. intros K IK. split; [intros ->; exact (NI IK)|]. apply (same_keys_in g2_of _ _ K FK), SUB, IK. }
      pose proof (read_in_g2 sqrt2 first f Hs2 CF EF) as G. rewrite Forall_forall in G.
      clear - SG SK G. revert SG. induction SK as [|K sk signing sks S1 S2 IH]; intros SG; constructor; [|exact (IH (Forall_inv_tail SG))].
      destruct (Forall_inv SG) as (NG & Q & I & E). pose proof (in_g2_on Q (G Q I)) as ON. destruct S1 as [BD S1]. split; [exact BD|]. split; [intros ->; apply NG, g2_to_inj; rewrite S1, g2_to_gen; reflexivity|].
      exists Q. split; [exact I|]. rewrite <- S1. destruct E as [-> |[UD ->]]; [left; exact (g2_to_of Q ON)|right]. split; [exact UD|]. apply g2_to_of, in_g2_on, in_g2_neg; [exact ON|exact (G Q I)].
    - destruct (C44_enough_signers g2_curve g2_gen _ _ _ QU) as (LS & _). destruct SF as (_ & _ & _ & FK).
      assert (LL : length sks = length signing) by (clear - SK; induction SK as [|K sk a b S F IH]; [reflexivity|exact (f_equal Datatypes.S IH)]).
      rewrite LL, <- (forall2_len _ _ _ FK). exact LS.
  Qed.
End Whole.
