(** Proofs for C71. *)
From Coq Require Import Znumtheory.
From Verif Require Import Base Constants Group Field Curve BitsModel EncodingModel EncodingSpec Blake2 HasherModel PointModel HashCurveModel HashCurveSpec CodecSpec
  Circuit GadgetModel GadgetSpec GadgetProofs HashGadgetModel HashGadgetSpec HashGadgetNative EpochCircuitModel EpochSpec EpochCircuitSpec EpochProofs ProverModel ProverSpec PropProver FfiModel FfiSpec FfiDataProofs PropFfi
  HelperModel SetupModel ShapeSpec LightSpec PropLight PropSetup CurveGroups CurvesSpec CurvesProofs CurveFinite CurveOrder CurveCount TwistOrder TwistCount OrderSpec OrderProofs TwistSpec TwistProofs SecretSpec.

(** ** Generic groups *)
Section Generic.
  Context {G : grp}.
  Lemma two_killers a b (P : G) : rel_prime a b -> smul a P = gz -> smul b P = gz -> P = gz.
  Proof.
    intros C A B. destruct (rel_prime_bezout a b C) as [u v E]. rewrite <- (smul_1 P), <- E, smul_add, !smul_mul, A, B, !smul_gz. apply ga_0_l.
  Qed.
End Generic.
Lemma hom_zero {G H : grp} (f : G -> H) : (forall P Q, f (ga P Q) = ga (f P) (f Q)) -> f gz = gz.
Proof.
  intros A. assert (E : ga (f gz) (f gz) = f gz) by (rewrite <- A, ga_0_l; reflexivity).
  apply (ga_cancel_l (f gz)). rewrite E, ga_0_r. reflexivity.
Qed.
Lemma hom_neg {G H : grp} (f : G -> H) P : (forall P Q, f (ga P Q) = ga (f P) (f Q)) -> f (gn P) = gn (f P).
Proof. intros A. apply gn_unique. rewrite <- A, gn_r. apply hom_zero, A. Qed.
Lemma hom_smul {G H : grp} (f : G -> H) k P : (forall P Q, f (ga P Q) = ga (f P) (f Q)) -> f (smul k P) = smul k (f P).
Proof.
  intros A. assert (N : forall n, f (smul (Z.of_nat n) P) = smul (Z.of_nat n) (f P)).
  { induction n as [|n IH]; [apply hom_zero, A|]. rewrite Nat2Z.inj_succ, !smul_succ, A, IH. reflexivity. }
  destruct (Z.le_ge_cases 0 k) as [L|L]; [rewrite <- (Z2Nat.id k L); apply N|].
  assert (E : k = - Z.of_nat (Z.to_nat (- k))) by (rewrite Z2Nat.id by (clear - L; lia); ring). rewrite E, !smul_opp, <- N. apply hom_neg, A.
Qed.

(** ** What the pairing equation says *)
Section Equation.
  Context {E1 E2 GT : grp} (e : E1 -> E2 -> GT) (b1 : E1) (b2 : E2) (n h : Z).
  Hypothesis add1 : forall P P' Q, smul n Q = gz -> e (ga P P') Q = ga (e P Q) (e P' Q).
  Hypothesis add2 : forall P Q Q', smul n Q = gz -> smul n Q' = gz -> e P (ga Q Q') = ga (e P Q) (e P Q').
  Hypothesis nondeg : e b1 b2 <> gz.
  Hypothesis ord1 : smul n b1 = gz.
  Hypothesis ord2 : smul n b2 = gz.
  Hypothesis kills : forall P : E1, smul (n * h) P = gz.
  Hypothesis torsion : forall P : E1, smul n P = gz -> exists k, P = smul k b1.
  Hypothesis prime_n : prime n.
  Hypothesis apart : rel_prime n h.
  Lemma closed k : smul n (smul k b2) = gz.
  Proof. rewrite <- smul_mul, Z.mul_comm, smul_mul, ord2. apply smul_gz. Qed.
  Lemma right_zero P : e P gz = gz.
  Proof.
    assert (E : ga (e P gz) (e P gz) = e P gz) by (rewrite <- add2, ga_0_l by apply smul_gz; reflexivity).
    rewrite <- (ga_0_r (e P gz)) in E at 3. exact (ga_cancel_l _ _ _ E).
  Qed.
  Lemma right_nat P m : e P (smul (Z.of_nat m) b2) = smul (Z.of_nat m) (e P b2).
  Proof. induction m as [|m IH]; [apply right_zero|]. rewrite Nat2Z.inj_succ, !smul_succ, add2, IH by (apply closed || exact ord2). reflexivity. Qed.
  Lemma right_mul P k : 0 <= k -> e P (smul k b2) = smul k (e P b2).
  Proof. intros L. rewrite <- (Z2Nat.id k L). apply right_nat. Qed.
  Lemma right_neg P : e P (gn b2) = gn (e P b2).
  Proof. apply gn_unique. rewrite <- add2, gn_r by (try exact ord2; rewrite smul_gn, ord2; apply gn_0). apply right_zero. Qed.
  Lemma left_mul P k Q : smul n Q = gz -> e (smul k P) Q = smul k (e P Q).
  Proof. intros K. exact (hom_smul (fun P => e P Q) k P (fun P P' => add1 P P' Q K)). Qed.
  Lemma value_killed P : smul n (e P b2) = gz.
  Proof. rewrite <- right_mul by (destruct prime_n; lia). rewrite ord2. apply right_zero. Qed.
  Lemma seen T : e T b2 = gz <-> smul h T = gz.
  Proof.
    split; intros H.
    - destruct (torsion (smul h T)) as [k E]; [rewrite <- smul_mul; apply kills|]. rewrite E.
      assert (K : smul k (e b1 b2) = gz) by (rewrite <- (left_mul b1 k b2 ord2), <- E, (left_mul T h b2 ord2), H; apply smul_gz).
      destruct (Zdivide_dec n k) as [[j ->]|D]; [rewrite smul_mul, ord1; apply smul_gz|].
      exfalso. apply nondeg. exact (two_killers n k _ (prime_rel_prime n prime_n k D) (value_killed b1) K).
    - apply (two_killers n h _ apart (value_killed T)). rewrite <- (left_mul T h b2 ord2), H. exact (hom_zero (fun P => e P b2) (fun P P' => add1 P P' b2 ord2)).
  Qed.
  Lemma products l : Forall (fun '(_, k) => 0 <= k) l ->
    sum (map (fun '(H, K) => e H K) (map (fun '(H, k) => (H, smul k b2)) l)) = e (sum (map (fun '(H, k) => smul k H) l)) b2.
  Proof.
    induction 1 as [|[H k] l L F IH]; [symmetry; exact (hom_zero (fun P => e P b2) (fun P P' => add1 P P' b2 ord2))|].
    cbn [map sum fold_right]. fold (sum (map (fun '(H, k) => smul k H) l)).
    change (ga (e H (smul k b2)) (sum (map (fun '(H, K) => e H K) (map (fun '(H, k) => (H, smul k b2)) l))) = e (ga (smul k H) (sum (map (fun '(H, k) => smul k H) l))) b2).
    rewrite IH, add1, right_mul, left_mul by assumption. reflexivity.
  Qed.
  Lemma equation s l : Forall (fun '(_, k) => 0 <= k) l ->
    signed e b2 s (map (fun '(H, k) => (H, smul k b2)) l) <-> smul h s = smul h (sum (map (fun '(H, k) => smul k H) l)).
  Proof.
    intros F. unfold signed. rewrite (products l F), right_neg. set (T := sum (map (fun '(H, k) => smul k H) l)).
    assert (E : ga (gn (e s b2)) (e T b2) = e (ga (gn s) T) b2).
    { rewrite add1 by exact ord2. rewrite (hom_neg (fun P => e P b2) s (fun P P' => add1 P P' b2 ord2)). reflexivity. }
    rewrite E, seen, smul_ga, smul_gn, ga_comm, gsub_0. split; intros X; symmetry; exact X.
  Qed.
End Equation.

(** ** On the curves *)
Lemma cof_lt : 0 < G1_COFACTOR < r. Proof. split; reflexivity. Qed.
Lemma cof_apart_n n : prime n -> 0 < G1_COFACTOR < n -> rel_prime n G1_COFACTOR.
Proof. intros P L. apply (prime_rel_prime n P). intros D. apply Z.divide_pos_le in D; [|apply L]. generalize dependent G1_COFACTOR. intros c L D. lia. Qed.
Lemma cof_apart : rel_prime r G1_COFACTOR. Proof. exact (cof_apart_n r prime_r cof_lt). Qed.
Lemma secret_iff K sk : secret_of K sk <-> 0 <= sk < r /\ K = smul sk g2_gen.
Proof.
  unfold secret_of. split; intros [L E]; (split; [exact L|]).
  - rewrite <- g2_to_gen, g2_times_to in E by exact (proj1 L). exact (g2_to_inj _ _ E).
  - rewrite E, <- g2_to_gen. symmetry. apply g2_times_to. exact (proj1 L).
Qed.
Lemma in_g2_secret K : in_g2 (g2_to K) <-> exists sk, secret_of K sk.
Proof. reflexivity. Qed.
Section Curves.
  Context {GT : grp} (e : g1_curve -> g2_curve -> GT) (L : curve_pairing e).
  Lemma pairing_add1 P P' Q : smul r Q = gz -> e (ga P P') Q = ga (e P Q) (e P' Q).
  Proof. intros K. apply (proj1 L), in_g2_iff, K. Qed.
  Lemma pairing_add2 P Q Q' : smul r Q = gz -> smul r Q' = gz -> e P (ga Q Q') = ga (e P Q) (e P Q').
  Proof. intros K K'. apply (proj1 (proj2 L)); apply in_g2_iff; assumption. Qed.
  Lemma g1_kills P : smul (r * G1_COFACTOR) P = gz :> g1_curve. Proof. exact (fo_kills _ _ g1_order P). Qed.
  Lemma g1_cyclic P : smul r P = gz :> g1_curve -> exists k, P = smul k g1_gen.
  Proof. intros H. apply CurveCount.g1_torsion in H as (k & _ & E). exists k. exact E. Qed.
  Lemma pairing_linear : linear_at e g2_gen.
  Proof.
    split; [intros P P'; exact (pairing_add1 P P' g2_gen gen2_order)|].
    intros P. exact (right_neg e g2_gen r pairing_add2 gen2_order P).
  Qed.
  (** keys as multiples, of single keys or of sums of keys *)
  Lemma curve_equation s l : Forall (fun '(_, k) => 0 <= k) l ->
    signed e g2_gen s (map (fun '(H, k) => (H, smul k g2_gen)) l) <-> same_in_g1 s (sum (map (fun '(H, k) => smul k H) l)).
  Proof.
    exact (equation e g1_gen g2_gen r G1_COFACTOR pairing_add1 pairing_add2 (proj2 (proj2 L)) gen_order gen2_order g1_kills g1_cyclic prime_r cof_apart s l).
  Qed.
  Lemma sum_secrets signing sks : Forall2 secret_of signing sks -> sum signing = smul (zsum sks) g2_gen /\ 0 <= zsum sks.
  Proof.
    induction 1 as [|K sk signing sks S F [IH N]]; [split; [reflexivity|cbn; lia]|]. apply secret_iff in S as [B ->].
    cbn [sum fold_right zsum]. fold (sum signing). fold (zsum sks). split; [rewrite smul_add, <- IH; reflexivity|exact (Z.add_nonneg_nonneg _ _ (proj1 B) N)].
  Qed.
  Lemma sum_zero k : 0 <= k -> smul k g2_gen <> gz <-> k mod r <> 0.
  Proof.
    intros _. split; intros H E; apply H.
    - rewrite <- (smul_mod_ord g2_gen k gen2_order), E. reflexivity.
    - apply (smul_eq_0_divide g2_gen k gen2_order gen2_not_0) in E. exact (proj2 (Z.mod_divide k r ltac:(discriminate)) E).
  Qed.
  Lemma all_secrets l : Forall (fun K => in_g2 (g2_to K)) l -> exists sks, Forall2 secret_of l sks.
  Proof.
    induction 1 as [|K l H F [sks IH]]; [exists []; constructor|]. destruct H as [sk S]. exists (sk :: sks). constructor; [exact S|exact IH].
  Qed.
  Lemma signers_in {A} (Q : A -> Prop) ks bs l : signers ks bs l -> Forall Q ks -> Forall Q l.
  Proof. induction 1; intros F; [constructor| |]; inversion_clear F; [constructor|]; auto. Qed.
End Curves.
Section Chain.
  Context {GT : grp} (e : g1_curve -> g2_curve -> GT) (L : curve_pairing e) (hashes : header g2_curve -> g1_curve -> Prop).
  Lemma chain_secrets l : forall c pairs, covered g2_gen hashes c l pairs -> Forall (fun K => in_g2 (g2_to K)) (m_keys c) -> Forall keys_in_g2 (removelast l) ->
    exists ps, signed_chain hashes c l ps /\ pairs = map (fun '(H, k) => (H, smul k g2_gen)) (map (fun '(H, sks) => (H, zsum sks)) ps) /\ Forall (fun '(_, k) => 0 <= k) (map (fun '(H, sks) => (H, zsum sks)) ps).
  Proof.
    induction l as [|h l IH]; intros c [|[H K] pairs] C G F; cbn [covered] in C; try contradiction.
    - exists []. split; [exact I|]. split; [reflexivity|constructor].
    - destruct C as (HH & (bitmap & signing & Q & E & NZ) & C).
      assert (F' : l = [] \/ (keys_in_g2 h /\ Forall keys_in_g2 (removelast l))).
      { destruct l as [|h' l]; [left; reflexivity|right]. cbn [removelast] in F. inversion_clear F. split; assumption. }
      assert (exists ps, signed_chain hashes (committee_of h) l ps /\ pairs = map (fun '(H, k) => (H, smul k g2_gen)) (map (fun '(H, sks) => (H, zsum sks)) ps) /\ Forall (fun '(_, k) => 0 <= k) (map (fun '(H, sks) => (H, zsum sks)) ps)) as (ps & S & -> & N).
      { destruct F' as [-> | [F1 F2]].
        - destruct pairs; [|contradiction]. exists []. split; [exact I|]. split; [reflexivity|constructor].
        - apply IH; [exact C| |exact F2]. unfold committee_of. cbn [m_keys]. apply Forall_map. exact F1. }
      pose proof Q as (_ & SG & _). destruct (all_secrets signing (signers_in _ _ _ _ SG G)) as [sks SK]. destruct (sum_secrets signing sks SK) as [SU NN].
      exists ((H, sks) :: ps). cbn [signed_chain map]. split; [|split].
      + split; [exact HH|]. split; [exists bitmap, signing; split; assumption|]. split; [|exact S]. apply (sum_zero _ NN). rewrite <- SU, <- E. exact NZ.
      + rewrite E, SU. reflexivity.
      + constructor; [exact NN|exact N].
  Qed.
  Lemma aggregate_map ps : sum (map (fun '(H, k) => smul k H) (map (fun '(H, sks) => (H, zsum sks)) ps)) = aggregate_of ps.
  Proof. unfold aggregate_of. rewrite map_map. f_equal. apply map_ext. intros [H sks]. reflexivity. Qed.
  Lemma chain_signed c l pairs s : covered g2_gen hashes c l pairs -> signed e g2_gen s pairs -> Forall (fun K => in_g2 (g2_to K)) (m_keys c) -> Forall keys_in_g2 (removelast l) ->
    exists ps, signed_chain hashes c l ps /\ same_in_g1 s (aggregate_of ps).
  Proof.
    intros C S G F. destruct (chain_secrets l c pairs C G F) as (ps & SC & -> & N). exists ps. split; [exact SC|].
    rewrite <- aggregate_map. apply (curve_equation e L s _ N). exact S.
  Qed.
End Chain.
Lemma exact_in_g1 (S T : g1_curve) : in_g1 (g1_to S) -> in_g1 (g1_to T) -> same_in_g1 S T -> S = T.
Proof.
  intros A B H. apply in_g1_iff in A, B. apply gsub_0. apply (two_killers r G1_COFACTOR _ cof_apart).
  - rewrite smul_ga, smul_gn, A, B, gn_0. apply ga_0_l.
  - rewrite smul_ga, smul_gn. apply gsub_0. exact H.
Qed.
Lemma in_g2_neg P : on_twist P = true -> in_g2 P -> in_g2 (g2_neg P).
Proof.
  intros O H. rewrite <- (g2_to_of P O) in H. apply in_g2_iff in H.
  assert (O' : on_twist (g2_neg P) = true) by (apply (ec_neg_on fq2 q2_0 q2_1 q2add q2mul q2sub q2opp q2div q2inv q2eqb TWIST_B fq2_field q2eqb_spec), O).
  rewrite <- (g2_to_of _ O'). apply in_g2_iff. rewrite g2_of_neg, smul_gn, H. apply gn_0.
Qed.
Lemma in_g2_on P : in_g2 P -> on_twist P = true.
Proof. intros (k & L & ->). rewrite <- g2_to_gen, g2_times_to by exact (proj1 L). apply g2_to_on. Qed.
Lemma generator_in_g2 : in_g2 g2_generator. Proof. rewrite <- g2_to_gen. apply in_g2_iff. exact gen2_order. Qed.
Lemma same_in_g2 K Q : in_g2 Q -> same_key g2_of K Q -> in_g2 (g2_to K).
Proof.
  intros G [->|[_ ->]].
  - rewrite (g2_to_of Q (in_g2_on Q G)). exact G.
  - pose proof (in_g2_neg Q (in_g2_on Q G) G) as G'. rewrite (g2_to_of _ (in_g2_on _ G')). exact G'.
Qed.
Lemma read_in_g2 sqrt2 x b : sqrt_spec q2mul sqrt2 -> c_block x -> epoch_block_try_from sqrt2 g2_test x = Ok b -> Forall in_g2 (padded_keys b).
Proof.
  intros Hs (_ & _ & _ & _ & _ & B & N & L) H. unfold epoch_block_try_from in H.
  destruct (read_pubkeys sqrt2 g2_test (ef_pubkeys x) (ef_pubkeys_num x)) as [ks|er|] eqn:K; cbn [rbind] in H; [|discriminate H|discriminate H].
  apply ok_inj in H. subst b. apply (C53_read_pubkeys sqrt2 g2_test _ _ ks Hs B N L) in K as (_ & _ & K).
  unfold padded_keys. cbn [eb_keys eb_max_validators]. apply Forall_app. split.
  - apply Forall_forall. intros P HP. apply In_nth_error in HP as [i HP].
    assert (i < length ks)%nat as Hi by (apply nth_error_Some; rewrite HP; discriminate).
    destruct (K i Hi) as (Q & EQ & (W & S)). rewrite HP in EQ. apply LightProofs.some_inj in EQ. subst Q.
    destruct P as [P|]; [|exact zero_in_g2]. apply test_ok2; [exact (wire_on2 _ _ W)|apply S; reflexivity].
  - apply Forall_forall. intros P HP. apply repeat_spec in HP as ->. exact generator_in_g2.
Qed.
Lemma shown_in_g2 h f : Forall in_g2 (padded_keys f) -> shows_first g2_of h f -> keys_in_g2 h.
Proof.
  intros G (_ & _ & _ & F). unfold keys_in_g2. revert F G. generalize (padded_keys f) as Qs. generalize (h_keys h) as ks.
  induction ks as [|k ks IH]; intros Qs F G; [constructor|]. rewrite map_cons in F. inversion F as [|? Q ? Qs' S F' E1 E2]. subst Qs. constructor.
  - exact (same_in_g2 (fst k) Q (Forall_inv G) S).
  - exact (IH Qs' F' (Forall_inv_tail G)).
Qed.

Section Whole.
  Context (GT : grp) (e : g1_curve -> g2_curve -> GT) (sqrt : fq -> option fq) (ped : bytes -> option fq) (compat debug : bool).
  Context (P V key_e key_h R : Type) (vk_of : key_h -> V) (default_proof : P) (helper_verify : P * V -> list (list bool) -> bool).
  Context (sqrt2 : fq2 -> option fq2) (vkey proof : Type) (vkd : bytes -> result vkey) (pd : bytes -> result proof) (vp : vkey -> proof -> list Z -> result bool).
  Context (vk_of_e : key_e -> vkey).
  Notation circuit pin := (generate_constraints e g1_gen g2_gen g1_of g2_of g1_to g2_to sqrt ped compat pin debug helper_verify).
  Notation verify_c := (ffi_verify sqrt2 g2_test vkd pd vp blake2_out).
  Notation hashes := (hashes_to g1_of (native_ped ped) compat).
  Notation cert := (certified e g2_gen (opens_to g2_of) hashes).

  Lemma certified_secrets n h0 l pairs s : curve_pairing e -> cert n h0 l pairs s -> keys_in_g2 h0 -> Forall keys_in_g2 (removelast l) ->
    exists ps, signed_chain hashes (committee_of h0) l ps /\ same_in_g1 s (aggregate_of ps).
  Proof.
    intros B (_ & _ & _ & C & S) G F. apply (chain_signed e B hashes (committee_of h0) l pairs s C S); [|exact F].
    unfold committee_of. cbn [m_keys]. apply Forall_map. exact G.
  Qed.
  Lemma verified_secrets n k m rng hs vs q (rng' : R) vk pf first last :
    curve_pairing e -> sqrt_spec q2mul sqrt2 -> Z.of_nat n < 2 ^ 32 -> (0 < k)%nat ->
    (forall w0 r0 key r1, vs w0 r0 = Val (key, r1) -> sound_for (fun pr inputs => vp (vk_of_e key) pr inputs = Ok true) (holds (circuit true w0))) ->
    trusted_setup vk_of default_proof hs vs n k m rng false = Val (q, rng') -> vkd vk = Ok (vk_of_e (p_epochs q)) ->
    c_block first -> c_block last -> verify_c vk pf first last = Returns true None ->
    exists f l (h0 hl : header g2_curve) hs, epoch_block_try_from sqrt2 g2_test first = Ok f /\ epoch_block_try_from sqrt2 g2_test last = Ok l /\
      (length (hs ++ [hl]) <= k)%nat /\
      (collides (first_bits h0) (enc_first f) \/ (exists agg, sums_to g2_to hl agg /\ collides (closing_bits hl ++ agg) (enc_last l)) \/
       (shows_first g2_of h0 f /\ shows_last g2_of hl l /\ eb_index l = (eb_index f + Z.of_nat (length (hs ++ [hl]))) mod 2 ^ 16 /\
        (Forall keys_in_g2 hs -> exists s ps, signed_chain hashes (committee_of h0) (hs ++ [hl]) ps /\ same_in_g1 s (aggregate_of ps)))).
  Proof.
    intros B Hs2 Hn Hk SO U D CF CL X.
    destruct (C63_certifies g1_curve g2_curve GT e g1_gen g2_gen g1_of g2_of g1_to g2_to sqrt ped compat debug P V key_e key_h R vk_of default_proof helper_verify
      sqrt2 g2_test vkey proof vkd pd vp vk_of_e n k m rng hs vs q rng' vk pf first last (pairing_linear e B) g2_gen_nz Hs2 Hn Hk SO U D CF CL X) as (f & l & h0 & l' & hl & pairs & s & EF & EL & LE & CE & SF & SL).
    exists f, l, h0, hl, l'. split; [exact EF|]. split; [exact EL|]. split; [exact LE|]. destruct SF as [SF|SF]; [|left; exact SF]. destruct SL as [SL|SL]; [|right; left; exact SL].
    right. right. split; [exact SF|]. split; [exact SL|].
    split; [exact (C62_distance g1_curve g2_curve GT e g2_gen g1_of g2_of ped compat n h0 l' hl pairs s f l CE SF SL)|].
    intros F. exists s. apply (certified_secrets n h0 (l' ++ [hl]) pairs s B CE (shown_in_g2 h0 f (read_in_g2 sqrt2 first f Hs2 CF EF) SF)).
    rewrite removelast_last. exact F.
  Qed.
  Lemma consecutive_secrets n k m rng hs vs q (rng' : R) vk pf first last :
    curve_pairing e -> sqrt_spec q2mul sqrt2 -> Z.of_nat n < 2 ^ 32 -> (0 < k)%nat -> Z.of_nat k < 2 ^ 16 ->
    (forall w0 r0 key r1, vs w0 r0 = Val (key, r1) -> sound_for (fun pr inputs => vp (vk_of_e key) pr inputs = Ok true) (holds (circuit true w0))) ->
    trusted_setup vk_of default_proof hs vs n k m rng false = Val (q, rng') -> vkd vk = Ok (vk_of_e (p_epochs q)) ->
    c_block first -> c_block last -> verify_c vk pf first last = Returns true None ->
    exists f l (h0 hl : header g2_curve), epoch_block_try_from sqrt2 g2_test first = Ok f /\ epoch_block_try_from sqrt2 g2_test last = Ok l /\
      (collides (first_bits h0) (enc_first f) \/ (exists agg, sums_to g2_to hl agg /\ collides (closing_bits hl ++ agg) (enc_last l)) \/
       (shows_first g2_of h0 f /\ shows_last g2_of hl l /\
        (eb_index l = (eb_index f + 1) mod 2 ^ 16 ->
         exists s H sks, hashes hl H /\ same_in_g1 s (smul (zsum sks) H) /\ zsum sks mod r <> 0 /\
           Forall (fun sk => 0 <= sk < r /\ sk <> 1 /\ exists Q, In Q (padded_keys f) /\
             (g2_times sk g2_generator = Q \/ (undetermined (snd (g2_coords (g2_neg Q))) /\ g2_times sk g2_generator = g2_neg Q))) sks /\
           Z.of_nat (length (padded_keys f)) - fqv (h_max h0) <= Z.of_nat (length sks) /\ fqv (h_max h0) mod 2 ^ 32 = eb_max_non_signers f))).
  Proof.
    intros B Hs2 Hn Hk Hk' SO U D CF CL X.
    destruct (consecutive GT e sqrt ped compat debug P V key_e key_h R vk_of default_proof helper_verify sqrt2 g2_test vkey proof vkd pd vp vk_of_e
      n k m rng hs vs q rng' vk pf first last (pairing_linear e B) Hs2 Hn Hk Hk' SO U D CF CL X) as (f & l & h0 & hl & EF & EL & Y).
    exists f, l, h0, hl. split; [exact EF|]. split; [exact EL|]. destruct Y as [Y|[Y|(SF & SL & Y)]]; [left; exact Y|right; left; exact Y|right; right].
    split; [exact SF|]. split; [exact SL|]. intros IX. destruct (Y IX) as (s & H & signing & HH & ES & NZ & FS & LS & MX).
    pose proof (read_in_g2 sqrt2 first f Hs2 CF EF) as G. rewrite Forall_forall in G.
    assert (GS : Forall (fun K => in_g2 (g2_to K)) signing).
    { revert FS. apply Forall_impl. intros K (_ & Q & I & ON & [E|[_ E]]); rewrite E; [exact (G Q I)|exact (in_g2_neg Q ON (G Q I))]. }
    destruct (all_secrets signing GS) as [sks SK]. destruct (sum_secrets signing sks SK) as [SU NN].
    exists s, H, sks. split; [exact HH|]. split; [|split; [|split; [|split]]].
    - assert (S : signed e g2_gen s (map (fun '(H, k) => (H, smul k g2_gen)) [(H, zsum sks)])).
      { unfold signed. cbn [map sum fold_right]. rewrite ga_0_r, <- SU, <- ES, (proj2 (pairing_linear e B)). apply gn_l. }
      apply (curve_equation e B s [(H, zsum sks)] (Forall_cons (H, zsum sks) NN (Forall_nil _))) in S.
      cbn [map sum fold_right] in S. rewrite ga_0_r in S. exact S.
    - apply (sum_zero _ NN). rewrite <- SU. exact NZ.
    - clear - FS SK. revert sks SK. induction FS as [|K signing (NG & Q & I & _ & E) FS IH]; intros sks SK; inversion_clear SK as [|? sk ? sks' S1 S2]; constructor; [|exact (IH _ S2)].
      destruct S1 as [BD S1]. split; [exact BD|]. split; [|exists Q; split; [exact I|rewrite <- S1; exact E]].
      intros ->. apply NG. rewrite S1. reflexivity.
    - assert (LL : length sks = length signing) by (clear - SK; induction SK as [|K sk a b S F IH]; [reflexivity|exact (f_equal Datatypes.S IH)]). rewrite LL. exact LS.
    - exact MX.
  Qed.
End Whole.
