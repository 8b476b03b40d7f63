(** Proofs for C82. *)
From Coq Require Import Permutation.
From Verif Require Import Base Constants Group Field Curve BitsModel EncodingModel EncodingSpec HasherModel PointModel HashCurveModel HashCurveSpec CodecSpec
  Circuit GadgetSpec HashGadgetModel HashGadgetSpec HashGadgetNative EpochCircuitModel EpochSpec EpochCircuitSpec EpochProofs EpochChainProofs ProverModel ProverSpec FfiModel FfiSpec
  HelperModel SetupModel ShapeSpec LightSpec ShapeProofs SetupProofs CurveGroups CurvesSpec OrderSpec OrderProofs TwistSpec TwistProofs SecretSpec SecretProofs KnowledgeSpec KnowledgeProofs KnowledgeLight
  RealSpec RealModel RealProofs RealBatchSpec ReductionSpec ReductionProofs.

(** ** Lists *)
Lemma sum_gsum {G : grp} (l : list G) : sum l = gsum l.
Proof. induction l as [|x l IH]; [reflexivity|]. rewrite gsum_cons, <- IH. reflexivity. Qed.
Lemma sum_to (l : list g2_curve) : fold_right g2_add None (map g2_to l) = g2_to (sum l).
Proof. induction l as [|x l IH]; [reflexivity|]. cbn [map fold_right]. rewrite IH. reflexivity. Qed.
Lemma signers_map {A B} (f : A -> B) l b s : signers l b s -> signers (map f l) b (map f s).
Proof. induction 1; cbn [map]; constructor; assumption. Qed.
Lemma signers_in {A} (l : list A) b s : signers l b s -> incl s l.
Proof. induction 1 as [|k ks bs l S IH|k ks bs l S IH]; intros x X; [exact X|destruct X as [-> |X]; [left; reflexivity|right; exact (IH x X)]|right; exact (IH x X)]. Qed.
(** Those who do not sign. *)
Lemma signers_rest {A} (l : list A) b s : signers l b s -> exists t, (forall x, In x l -> In x s \/ In x t) /\ length l = (length s + length t)%nat.
Proof.
  induction 1 as [|k ks bs l S (t & I & L)|k ks bs l S (t & I & L)].
  - exists []. split; [intros x []|reflexivity].
  - exists t. split; [intros x [-> |X]; [left; left; reflexivity|destruct (I x X); [left; right; assumption|right; assumption]]|cbn [length]; lia].
  - exists (k :: t). split; [intros x [-> |X]; [right; left; reflexivity|destruct (I x X); [left; assumption|right; right; assumption]]|cbn [length]; lia].
Qed.
Lemma one_signs {A} (dec : forall x y : A, {x = y} + {x <> y}) (l : list A) b s m honest : signers l b s -> Z.of_nat (length l) - m <= Z.of_nat (length s) ->
  NoDup honest -> incl honest l -> m < Z.of_nat (length honest) -> exists x, In x honest /\ In x s.
Proof.
  intros S L N I M. destruct (signers_rest l b s S) as (t & C & E).
  destruct (Exists_dec (fun x => In x s) honest (fun x => in_dec dec x s)) as [X|X]; [apply Exists_exists in X; exact X|]. exfalso.
  assert (J : incl honest t). { intros x Hx. destruct (C x (I x Hx)) as [K|K]; [|exact K]. destruct X. apply Exists_exists. exists x. auto. }
  pose proof (NoDup_incl_length N J). lia.
Qed.
Lemma fq_eq_dec (x y : fq) : {x = y} + {x <> y}.
Proof. destruct (qeqb x y) eqn:E; [left; apply qeqb_spec, E|right; intros ->; rewrite (proj2 (qeqb_spec y y) eq_refl) in E; discriminate E]. Qed.
Lemma pair_dec {A B} (da : forall x y : A, {x = y} + {x <> y}) (db : forall x y : B, {x = y} + {x <> y}) (x y : A * B) : {x = y} + {x <> y}.
Proof. destruct x as [a b], y as [c d]. destruct (da a c) as [-> |N]; [destruct (db b d) as [-> |N]|]; [left; reflexivity|right; intros E; injection E; exact N|right; intros E; injection E; intros _; exact N]. Qed.
Lemma option_dec {A} (da : forall x y : A, {x = y} + {x <> y}) (x y : option A) : {x = y} + {x <> y}.
Proof. destruct x as [a|], y as [b|]; [destruct (da a b) as [-> |N]; [left; reflexivity|right; intros E; injection E; exact N]|right; intros E; discriminate E|right; intros E; discriminate E|left; reflexivity]. Qed.
Lemma g2_point_dec (x y : g2_point) : {x = y} + {x <> y}.
Proof. exact (option_dec (pair_dec (pair_dec fq_eq_dec fq_eq_dec) (pair_dec fq_eq_dec fq_eq_dec)) x y). Qed.

(** The keys of a header that shows a block without undetermined keys are those of the block. *)
Lemma keys_shown (Ks : list g2_curve) (Qs : list g2_point) : Forall2 (EpochSpec.same_key g2_of) Ks Qs -> Forall in_g2 Qs -> Forall (fun Q => ~ undetermined (snd (g2_coords (g2_neg Q)))) Qs -> map g2_to Ks = Qs.
Proof.
  induction 1 as [|K Q Ks Qs S F IH]; intros G D; [reflexivity|]. cbn [map]. rewrite (IH (Forall_inv_tail G) (Forall_inv_tail D)). f_equal.
  destruct S as [-> |[U _]]; [exact (g2_to_of Q (in_g2_on Q (Forall_inv G)))|destruct (Forall_inv D U)].
Qed.
Lemma zsum_cons x l : zsum (x :: l) = x + zsum l.
Proof. reflexivity. Qed.
Lemma secrets_nonneg signing sks : Forall2 secret_of signing sks -> 0 <= zsum sks.
Proof. induction 1 as [|K sk a b S F IH]; [reflexivity|]. rewrite zsum_cons. apply Z.add_nonneg_nonneg; [apply S|exact IH]. Qed.
Lemma secrets_sum signing sks : Forall2 secret_of signing sks -> 0 <= zsum sks /\ fold_right g2_add None (map g2_to signing) = g2_times (zsum sks) g2_generator.
Proof.
  intros F. pose proof (secrets_nonneg _ _ F) as N. split; [exact N|].
  rewrite sum_to, <- g2_to_gen, g2_times_to by exact N. f_equal. clear N. induction F as [|K sk a b [B E] F IH]; [reflexivity|].
  rewrite zsum_cons, smul_add, <- IH. cbn [sum fold_right]. f_equal. apply g2_to_inj. rewrite E, <- g2_to_gen. apply g2_times_to, B.
Qed.

Section Whole.
  Context (GT : grp) (e : g1_curve -> g2_curve -> GT) (sqrt : fq -> option fq) (ped : bytes -> option fq) (compat debug : bool).
  Context (P V key_e key_h R : Type) (vk_of : key_h -> V) (default_proof : P) (helper_verify : P * V -> list (list bool) -> bool).
  Context (sqrt2 : fq2 -> option fq2) (vkey proof : Type) (vkd : bytes -> result vkey) (pd : bytes -> result proof) (vp : vkey -> proof -> list Z -> result bool).
  Context (vk_of_e : key_e -> vkey) (extract : key_e -> proof -> list Z -> list cell).
  Notation circuit pin := (generate_constraints e g1_gen g2_gen g1_of g2_of g1_to g2_to sqrt ped compat pin debug helper_verify).
  Notation verify_c := (ffi_verify sqrt2 g2_test vkd pd vp blake2_out).
  Notation hashes := (hashes_to g1_of (native_ped ped) compat).
  (** Native proofs of possession, with their pairing and hasher. *)
  Context (GT' : grp) (e' : g1_point -> g2_point -> GT') (L' : bilinear e') (compat' : bool) (ped' : bytes -> result bytes) (sqrt' : fq -> option fq) (sqrt2' : fq2 -> option fq2).
  Hypothesis ped_bytes : forall m out, ped' m = Ok out -> is_bytes out = true.
  Hypothesis sqrt_ok : sqrt_spec qmul sqrt'.
  Hypothesis sqrt2_ok : sqrt_spec q2mul sqrt2'.
  Notation possessed := (proved (hashed compat' ped' sqrt') (c_verify_pop GT' e' L' compat' sqrt' sqrt2')).

  Lemma one_header_answer H signing sks T Y k A others : Forall2 secret_of signing sks -> T = smul (zsum sks) H -> in_g1 Y -> 0 < k < r -> g1_to H = g1_times k Y ->
    Permutation (map g2_to signing) (A :: map o_point others) -> Forall (possessed Y) others -> answers A Y (extracted k (g1_to T) others).
  Proof.
    intros SK -> IY K EH PM F. destruct (secrets_sum signing sks SK) as (N & E).
    assert (IA : in_g2 A).
    { assert (I : In A (map g2_to signing)) by (apply (Permutation_in (l := A :: map o_point others)); [symmetry; exact PM|left; reflexivity]).
      clear - I SK. induction SK as [|X sk a b [B E] F IH]; [destruct I|]. destruct I as [<- |I]; [|exact (IH I)]. exists sk. split; [exact B|exact E]. }
    apply (answer_of_sum GT' e' L' compat' ped' sqrt' sqrt2' ped_bytes sqrt_ok sqrt2_ok A _ Y k (zsum sks) others IA IY K F N).
    - rewrite <- E. apply Permutation_sym in PM. destruct (Permutation_map_inv _ _ PM) as (l3 & -> & P3). rewrite !sum_to, !sum_gsum. f_equal. apply gsum_perm. symmetry. exact P3.
    - rewrite <- EH. symmetry. exact (g1_times_to _ H N).
  Qed.

  Lemma forged c (Hc : exists m, c = m * G1_COFACTOR) (Kc : forall T : g1_curve, smul r T = gz -> smul c T = T) n k m rng hs vs q (rng' : R) vk pf first last :
    curve_pairing e -> sqrt_spec q2mul sqrt2 -> Z.of_nat n < 2 ^ 32 -> (0 < k)%nat -> Z.of_nat k < 2 ^ 16 ->
    (forall w0 r0 key r1, vs w0 r0 = Val (key, r1) -> extractable (fun pr inputs => vp (vk_of_e key) pr inputs = Ok true) (circuit true w0) (extract key)) ->
    trusted_setup vk_of default_proof hs vs n k m rng false = Val (q, rng') -> vkd vk = Ok (vk_of_e (p_epochs q)) ->
    c_block first -> c_block last -> verify_c vk pf first last = Returns true None ->
    exists f l pr inputs (h0 hl : header g2_curve) s, epoch_block_try_from sqrt2 g2_test first = Ok f /\ epoch_block_try_from sqrt2 g2_test last = Ok l /\ pd pf = Ok pr /\
      public_inputs g2_coords g2_sum g2_generator blake2_out f l = Ok (Some inputs) /\
      contains_header g2_of (extract (p_epochs q) pr inputs) h0 /\ contains_header g2_of (extract (p_epochs q) pr inputs) hl /\ contains_g1 g1_of (extract (p_epochs q) pr inputs) s /\
      (collides (first_bits h0) (enc_first f) \/ (exists agg, sums_to g2_to hl agg /\ collides (closing_bits hl ++ agg) (enc_last l)) \/
       (shows_first g2_of h0 f /\ shows_last g2_of hl l /\
        (eb_index l = (eb_index f + 1) mod 2 ^ 16 -> Forall (fun Q => ~ undetermined (snd (g2_coords (g2_neg Q)))) (padded_keys f) ->
         exists H bitmap signing, hashes hl H /\ signers (padded_keys f) bitmap signing /\ signing <> [] /\ ~ In g2_generator signing /\
           (forall honest, NoDup honest -> incl honest (padded_keys f) -> fqv (h_max h0) < Z.of_nat (length honest) -> exists A, In A honest /\ In A signing) /\
           forall Y kappa A others, in_g1 Y -> 0 < kappa < r -> g1_to H = g1_times kappa Y -> Permutation signing (A :: map o_point others) -> Forall (possessed Y) others ->
             answers A Y (extracted kappa (g1_to (smul c (ga s (gn (smul (Z.of_nat k - 1) g1_gen))))) others)))).
  Proof.
    intros B Hs2 Hn Hk Hk' SO U D CF CL X.
    destruct (known_secrets GT e sqrt ped compat debug P V key_e key_h R vk_of default_proof helper_verify sqrt2 vkey proof vkd pd vp vk_of_e extract c Hc Kc n k m rng hs vs q rng' vk pf first last B Hs2 Hn Hk SO U D CF CL X)
      as (f & l & pr & inputs & h0 & hl & l' & s & d & EF & EL & PD & HI & LE & KH & KS & Y).
    exists f, l, pr, inputs, h0, hl, s. split; [exact EF|]. split; [exact EL|]. split; [exact PD|]. split; [exact HI|].
    split; [exact (Forall_inv KH)|]. split; [apply Forall_inv_tail in KH; apply Forall_app in KH as [_ KH]; exact (Forall_inv KH)|]. split; [exact KS|].
    destruct Y as [Y|[Y|(SF & SL & DI & Y)]]; [left; exact Y|right; left; exact Y|right; right]. split; [exact SF|]. split; [exact SL|]. intros IX DT.
    assert (L1 : length (l' ++ [hl]) = 1%nat).
    { rewrite IX in DI. assert (X1 : (Z.of_nat (length (l' ++ [hl])) - 1) mod 2 ^ 16 = 0).
      { replace (Z.of_nat (length (l' ++ [hl])) - 1) with (eb_index f + Z.of_nat (length (l' ++ [hl])) - (eb_index f + 1)) by lia.
        rewrite Zminus_mod, <- DI, Zminus_diag. reflexivity. }
      rewrite app_length in *. cbn [length] in *. rewrite Z.mod_small in X1 by lia. lia. }
    destruct l' as [|h1 l']; [|rewrite app_length in L1; cbn [length] in L1; lia]. cbn [app] in *.
    destruct (Y (Forall_nil _)) as (ps & SC & EQ). destruct ps as [|[H sks] ps]; cbn [signed_chain] in SC; [contradiction|].
    destruct SC as (HH & (bitmap & signing & QU & SK) & NZ & SC). destruct ps; [|contradiction].
    pose proof (read_in_g2 sqrt2 first f Hs2 CF EF) as G. destruct SF as (_ & _ & _ & FK). pose proof (keys_shown _ _ FK G DT) as EK.
    pose proof QU as (_ & SG & NG & PS). cbn [m_keys m_max committee_of] in SG, PS.
    pose proof (signers_map g2_to _ _ _ SG) as SM. rewrite EK in SM.
    pose proof (quorum_size _ _ _ _ QU) as QS. cbn [m_keys m_max committee_of] in QS.
    exists H, bitmap, (map g2_to signing). split; [exact HH|]. split; [exact SM|].
    split; [intros E; apply map_eq_nil in E; subst signing; inversion SK; subst sks; apply NZ; reflexivity|]. split; [|split].
    - intros I. apply NG. rewrite <- g2_to_gen in I. apply in_map_iff in I as (K & E & I). apply g2_to_inj in E. rewrite <- E. exact I.
    - intros honest ND IN M. refine (one_signs g2_point_dec _ _ _ (fqv (h_max h0)) honest SM _ ND IN M). rewrite map_length, <- EK, map_length. exact QS.
    - intros Y' kappa A others IY K EH PM F. apply (one_header_answer H signing sks _ Y' kappa A others SK); try assumption.
      replace (Z.of_nat k - 1) with (Z.of_nat d) by (cbn [length] in LE; lia). rewrite EQ. unfold aggregate_of. cbn [map sum fold_right]. apply ga_0_r.
  Qed.
End Whole.
