(** Proofs for C81. *)
From Coq Require Import Znumtheory Zpow_facts.
From Verif Require Import Base Constants Group Field Curve Prime BlsModel BlsSpec CacheModel CacheSpec PointModel EncodingModel HasherModel HashCurveModel HashCurveSpec CodecModel CodecSpec
  FfiModel CurveGroups CurveCount CurveOrder TwistOrder OrderSpec OrderProofs TwistSpec RealSpec RealModel RealProofs PropReal RealBatchSpec RealSessionModel RealSessionSpec RealSessionProofs RogueSpec RogueProofs ReductionSpec.

(** ** Division *)
Lemma inverse_range k : 0 <= inverse k < r.
Proof. unfold inverse. rewrite Zpow_mod_correct by (intros K; discriminate K). apply Z.mod_pos_bound. reflexivity. Qed.
Lemma inverse_ok k : 0 < k < r -> (inverse k * k) mod r = 1.
Proof.
  intros B. unfold inverse. rewrite Zpow_mod_correct by (intros K; discriminate K). rewrite Z.mul_mod_idemp_l by (intros K; discriminate K).
  assert (E : k ^ (r - 2) * k = k ^ (r - 1)).
  { replace (r - 1) with (Z.succ (r - 2)) by (clear; lia). rewrite Z.pow_succ_r by (apply Z.leb_le; reflexivity). apply Z.mul_comm. }
  rewrite E. apply fermat_little; [exact prime_r|]. intros D. apply Z.divide_pos_le in D; [|apply B]. destruct B as [_ B]. exact (Zlt_not_le _ _ B D).
Qed.
Lemma cancel i k s n : n <> 0 -> (i * k) mod n = 1 -> (i * (s * k)) mod n = s mod n.
Proof. intros N E. replace (i * (s * k)) with (s * (i * k)) by ring. rewrite <- Z.mul_mod_idemp_r, E, Z.mul_1_r by exact N. reflexivity. Qed.
Lemma cancel' i k s n : n <> 0 -> (i * k) mod n = 1 -> (s * i * k) mod n = s mod n.
Proof. intros N E. rewrite <- Z.mul_assoc, <- Z.mul_mod_idemp_r, E, Z.mul_1_r by exact N. reflexivity. Qed.
Lemma r_nz : r <> 0. Proof. intros K; discriminate K. Qed.
Lemma undo (P : sub g1_curve) k s : 0 < k < r -> smul (inverse k) (smul s (smul k P)) = smul s P.
Proof.
  intros B. rewrite <- (smul_mul s k P), <- (smul_mul (inverse k) (s * k) P), (sub_mod g1_curve (inverse k * (s * k))), (sub_mod g1_curve s), (cancel _ _ _ r r_nz (inverse_ok k B)). reflexivity.
Qed.
Lemma of1_times k P : 0 <= k -> in_g1 P -> of1 (g1_times k P) = smul k (of1 P).
Proof. intros K I. apply to1_inj. rewrite (to1_smul k _ K), (to1_of1 P I). apply to1_of1. destruct (in_g1_times k P K I) as (s & <-). apply to1_in. Qed.
Lemma in_times k P : 0 <= k -> in_g1 P -> in_g1 (g1_times k P).
Proof. intros K I. destruct (in_g1_times k P K I) as (s & <-). apply to1_in. Qed.
Lemma of2_times k P : 0 <= k -> in_g2 P -> of2 (g2_times k P) = smul k (of2 P).
Proof. intros K I. apply to2_inj. rewrite (to2_smul k _ K), (to2_of2 P I). rewrite <- (to2_of2 P I), <- (to2_smul k _ K), of2_to2. reflexivity. Qed.
Lemma to1_neg (P : sub g1_curve) : to1 (gn P) = g1_neg (to1 P). Proof. reflexivity. Qed.
Lemma of1_divided k S : in_g1 S -> of1 (divided k S) = smul (inverse k) (of1 S).
Proof. intros I. exact (of1_times _ S (proj1 (inverse_range k)) I). Qed.
Lemma in_divided k S : in_g1 S -> in_g1 (divided k S).
Proof. intros I. exact (in_times _ S (proj1 (inverse_range k)) I). Qed.
Lemma gen2_nz : (sub_in g2_gen : sub g2_curve) <> gz.
Proof. intros E. apply (f_equal to2) in E. rewrite to2_gen in E. change (to2 gz) with (None : g2_point) in E. discriminate E. Qed.
Lemma gen2_in : in_g2 g2_generator. Proof. rewrite <- to2_gen. apply to2_in. Qed.
Lemma of2_gen : of2 g2_generator = sub_in g2_gen. Proof. rewrite <- to2_gen. apply of2_to2. Qed.
Lemma g1_gen_in : in_g1 g1_generator. Proof. exists 1. split; [split; [intros K; discriminate K|reflexivity]|reflexivity]. Qed.

(** ** Answers are unique, and points are multiples in one way *)
Lemma answers_unique A Y X X' : in_g1 Y -> answers A Y X -> answers A Y X' -> X = X'.
Proof.
  intros I (a & B & -> & ->) (a' & B' & E & ->). assert (a = a') as <-; [|reflexivity].
  apply (f_equal of2) in E. rewrite !of2_times, of2_gen in E by (try apply B; try apply B'; exact gen2_in).
  apply (smul_inj_scalar _ _ _ (ord_sub g2_curve _) gen2_nz) in E. rewrite !Z.mod_small in E by assumption. exact E.
Qed.
Lemma multiple Y H : in_g1 Y -> Y <> None -> in_g1 H -> H <> None -> exists k, 0 < k < r /\ H = g1_times k Y /\ forall k', 0 < k' < r -> H = g1_times k' Y -> k' = k.
Proof.
  intros IY NY IH NH. destruct (cyclic_1 (of1 Y)) as (y & EY). destruct (cyclic_1 (of1 H)) as (h & EH). set (g := sub_in g1_gen : sub g1_curve) in *.
  assert (Ny : of1 Y <> gz) by (intros E; apply NY; rewrite <- (to1_of1 Y IY), E; reflexivity).
  assert (Nh : of1 H <> gz) by (intros E; apply NH; rewrite <- (to1_of1 H IH), E; reflexivity).
  assert (RP : 0 < r) by reflexivity.
  assert (Yr : 0 < y mod r < r).
  { pose proof (Z.mod_pos_bound y r RP) as [B1 B2]. split; [|exact B2]. apply Z.le_neq. split; [exact B1|]. intros Z. apply Ny. rewrite EY, (sub_mod g1_curve), <- Z. reflexivity. }
  set (k := (h * inverse (y mod r)) mod r). assert (K : smul k (of1 Y) = of1 H).
  { unfold k. rewrite <- (sub_mod g1_curve), EY, EH, (sub_mod g1_curve y), <- smul_mul, (sub_mod g1_curve), (sub_mod g1_curve h), (cancel' _ _ _ r r_nz (inverse_ok _ Yr)). reflexivity. }
  pose proof (Z.mod_pos_bound (h * inverse (y mod r)) r RP) as [B1 B2]. fold k in B1, B2. exists k. split; [|split].
  - split; [|exact B2]. apply Z.le_neq. split; [exact B1|]. intros Z. apply Nh. rewrite <- K, <- Z. reflexivity.
  - rewrite <- (to1_of1 H IH), <- K, (to1_smul k _ B1), (to1_of1 Y IY). reflexivity.
  - intros k' B' E. apply (f_equal of1) in E. rewrite of1_times, <- K in E by (try exact IY; apply Z.lt_le_incl, B').
    apply (smul_inj_scalar _ _ _ (ord_sub g1_curve _) Ny) in E. rewrite !Z.mod_small in E by (split; [try exact B1; apply Z.lt_le_incl, B'|try exact B2; apply B']). symmetry. exact E.
Qed.

Section Reduction.
  Context (GT : grp) (e : g1_point -> g2_point -> GT) (L : bilinear e).
  Context (compat : bool) (ped : bytes -> result bytes) (sqrt : fq -> option fq) (sqrt2 : fq2 -> option fq2).
  Hypothesis ped_bytes : forall m out, ped m = Ok out -> is_bytes out = true.
  Hypothesis sqrt_ok : sqrt_spec qmul sqrt.
  Hypothesis sqrt2_ok : sqrt_spec q2mul sqrt2.
  Notation verify := (c_verify GT e L compat ped sqrt sqrt2).
  Notation verify_pop := (c_verify_pop GT e L compat sqrt sqrt2).
  Notation hash := (hashed compat ped sqrt).

  Lemma sig_unique l S S' : is_bytes l = true -> sig_bytes l S -> sig_bytes l S' -> S = S'.
  Proof. intros B H H'. apply (read_signature_iff sqrt sqrt_ok _ _ B) in H, H'. congruence. Qed.
  (** The private key behind an accepted signature. *)
  Lemma behind pk sig m x c f P S H : is_bytes pk = true -> is_bytes sig = true -> key_bytes pk P -> sig_bytes sig S -> hash c f SIG_DOMAIN m x H ->
    verify pk sig m x c f = Some true -> exists s, 0 <= s < r /\ P = g2_times s g2_generator /\ S = g1_times s H.
  Proof.
    intros B1 B2 KP KS HH V. pose proof (proj1 (hashed_in compat ped sqrt ped_bytes sqrt_ok _ _ _ _ _ _ HH)) as IH.
    apply (verify_iff_c GT e L compat ped sqrt sqrt2 ped_bytes sqrt_ok sqrt2_ok pk sig m x c f B1 B2) in V as (s & H' & R & HH' & L1 & W1 & L2 & W2).
    rewrite (hashed_unique _ _ _ _ _ _ _ _ _ _ HH' HH) in *. exists s. split; [exact R|]. split.
    - apply (key_bytes_unique sqrt2 sqrt2_ok _ _ _ B1 KP). split; [exact L1|]. split; [exact W1|]. exists s. split; [exact R|reflexivity].
    - apply (sig_unique _ _ _ B2 KS). split; [exact L2|]. split; [exact W2|]. exact (in_times s H (proj1 R) IH).
  Qed.
  Lemma behind_pop pk sig m P S H : is_bytes pk = true -> is_bytes sig = true -> key_bytes pk P -> sig_bytes sig S -> hash false false POP_DOMAIN m [] H ->
    verify_pop pk sig m = Some true -> exists s, 0 <= s < r /\ P = g2_times s g2_generator /\ S = g1_times s H.
  Proof.
    intros B1 B2 KP KS HH V. pose proof (proj1 (hashed_in compat ped sqrt ped_bytes sqrt_ok _ _ _ _ _ _ HH)) as IH.
    apply (verify_pop_iff_c GT e L compat ped sqrt sqrt2 ped_bytes sqrt_ok sqrt2_ok pk sig m B1 B2) in V as (s & H' & R & HH' & L1 & W1 & L2 & W2).
    rewrite (hashed_unique _ _ _ _ _ _ _ _ _ _ HH' HH) in *. exists s. split; [exact R|]. split.
    - apply (key_bytes_unique sqrt2 sqrt2_ok _ _ _ B1 KP). split; [exact L1|]. split; [exact W1|]. exists s. split; [exact R|reflexivity].
    - apply (sig_unique _ _ _ B2 KS). split; [exact L2|]. split; [exact W2|]. exact (in_times s H (proj1 R) IH).
  Qed.
  Lemma solved Y k s : in_g1 Y -> 0 < k < r -> 0 <= s -> of1 (divided k (g1_times s (g1_times k Y))) = smul s (of1 Y).
  Proof.
    intros I B S. assert (K : 0 <= k) by (apply Z.lt_le_incl, B). rewrite of1_divided by (apply in_times; [exact S|apply in_times; assumption]).
    rewrite of1_times by (try exact S; apply in_times; assumption). rewrite (of1_times k Y K I). apply undo, B.
  Qed.
  Lemma one_answer pk sig m x c f A S Y k : is_bytes pk = true -> is_bytes sig = true -> key_bytes pk A -> sig_bytes sig S -> in_g1 Y -> 0 < k < r ->
    hash c f SIG_DOMAIN m x (g1_times k Y) -> verify pk sig m x c f = Some true -> answers A Y (divided k S).
  Proof.
    intros B1 B2 KA KS IY K HH V. destruct (behind pk sig m x c f A S _ B1 B2 KA KS HH V) as (s & R & -> & ->). exists s. split; [exact R|]. split; [reflexivity|].
    pose proof (solved Y k s IY K (proj1 R)) as E. apply (f_equal to1) in E. rewrite to1_of1, (to1_smul _ _ (proj1 R)), (to1_of1 Y IY) in E; [exact E|]. apply in_divided, KS.
  Qed.

  Notation proved := (proved hash verify_pop).
  Lemma others_sum Y others : in_g1 Y -> Forall (proved Y) others -> exists t, 0 <= t /\ of2 (fold_right g2_add None (map o_point others)) = smul t (sub_in g2_gen) /\
    in_g2 (fold_right g2_add None (map o_point others)) /\ in_g1 (fold_right g1_add None (map (fun o => divided (o_factor o) (o_proof o)) others)) /\
    of1 (fold_right g1_add None (map (fun o => divided (o_factor o) (o_proof o)) others)) = smul t (of1 Y).
  Proof.
    intros IY. induction 1 as [|o others (B1 & B2 & KP & KS & K & HH & V) F (t & T & E2 & I2 & I1 & E1)]; cbn [map fold_right].
    - exists 0. split; [reflexivity|]. split; [apply to2_inj; rewrite to2_of2; [reflexivity|exact (to2_in gz)]|]. split; [exact (to2_in gz)|]. split; [exact (to1_in gz)|].
      apply to1_inj. rewrite to1_of1; [reflexivity|exact (to1_in gz)].
    - destruct (behind_pop _ _ _ _ _ _ B1 B2 KP KS HH V) as (s & R & EP & ES). pose proof (proj2 (proj2 KP)) as IP. pose proof (proj2 (proj2 KS)) as IS.
      exists (s + t). split; [apply Z.add_nonneg_nonneg; [apply R|exact T]|].
      set (Q := fold_right g2_add None (map o_point others)) in *. set (Z := fold_right g1_add None _) in *.
      assert (A2 : g2_add (o_point o) Q = to2 (ga (of2 (o_point o)) (of2 Q))) by (rewrite to2_add, (to2_of2 _ IP), (to2_of2 _ I2); reflexivity).
      assert (A1 : g1_add (divided (o_factor o) (o_proof o)) Z = to1 (ga (of1 (divided (o_factor o) (o_proof o))) (of1 Z))) by (rewrite to1_add, (to1_of1 _ (in_divided _ _ IS)), (to1_of1 _ I1); reflexivity).
      rewrite A1, A2, of1_to1, of2_to2, E1, E2. split; [|split; [apply to2_in|split; [apply to1_in|]]].
      + rewrite EP, (of2_times s _ (proj1 R) gen2_in), of2_gen, smul_add. reflexivity.
      + rewrite ES, (solved Y _ s IY K (proj1 R)), smul_add. reflexivity.
  Qed.
  Lemma answer_of_sum A S Y k s others : in_g2 A -> in_g1 Y -> 0 < k < r -> Forall (proved Y) others -> 0 <= s ->
    fold_right g2_add None (A :: map o_point others) = g2_times s g2_generator -> S = g1_times s (g1_times k Y) -> answers A Y (extracted k S others).
  Proof.
    intros IA IY K F R EP ES. destruct (others_sum Y others IY F) as (t & T & E2 & I2 & I1 & E1).
    pose proof IA as (a & Ra & EA). exists a. split; [exact Ra|]. split; [exact EA|]. cbn [map fold_right] in EP. unfold extracted.
    set (Q := fold_right g2_add None (map o_point others)) in *. set (Z := fold_right g1_add None _) in *.
    assert (C : s mod r = (a + t) mod r).
    { apply (smul_inj_scalar (sub_in g2_gen : sub g2_curve) _ _ (ord_sub g2_curve _) gen2_nz). apply (f_equal of2) in EP.
      rewrite (of2_times s _ R gen2_in), of2_gen in EP. rewrite <- EP.
      assert (A2 : g2_add A Q = to2 (ga (of2 A) (of2 Q))) by (rewrite to2_add, (to2_of2 _ IA), (to2_of2 _ I2); reflexivity).
      rewrite A2, of2_to2, E2, EA, (of2_times a _ (proj1 Ra) gen2_in), of2_gen, smul_add. reflexivity. }
    assert (IS : in_g1 S) by (rewrite ES; exact (in_times s _ R (in_times k Y (Z.lt_le_incl _ _ (proj1 K)) IY))).
    pose proof (in_divided k S IS) as ID.
    assert (A1 : g1_add (divided k S) (g1_neg Z) = to1 (ga (of1 (divided k S)) (gn (of1 Z)))) by (rewrite to1_add, to1_neg, (to1_of1 _ ID), (to1_of1 _ I1); reflexivity).
    rewrite A1, E1, ES, (solved Y k s IY K R), (sub_mod g1_curve s), C, <- (sub_mod g1_curve), smul_add, <- ga_assoc, (ga_comm _ (smul t _)), gn_l, ga_0_r.
    rewrite (to1_smul a _ (proj1 Ra)), (to1_of1 Y IY). reflexivity.
  Qed.
  Lemma aggregate_answer apk sig m x c f A S Y k others : is_bytes apk = true -> is_bytes sig = true -> in_g2 A ->
    key_bytes apk (fold_right g2_add None (A :: map o_point others)) -> sig_bytes sig S -> in_g1 Y -> 0 < k < r -> Forall (proved Y) others ->
    hash c f SIG_DOMAIN m x (g1_times k Y) -> verify apk sig m x c f = Some true -> answers A Y (extracted k S others).
  Proof.
    intros B1 B2 IA KA KS IY K F HH V. destruct (behind apk sig m x c f _ S _ B1 B2 KA KS HH V) as (s & R & EP & ES).
    exact (answer_of_sum A S Y k s others IA IY K F (proj1 R) EP ES).
  Qed.
  (** ** The same for the aggregate key that the C interface computes *)
  Context (fh : fq2 -> Z).
  Notation E := (real_cache sqrt2 fh).
  Lemma served_answer qs o1 o2 b bs pk apk sig m x c f A S Y k others : Forall proper qs -> fair (E := E) o1 -> fair (E := E) o2 -> is_bytes pk = true -> is_bytes sig = true ->
    length bs = length others -> key_bytes pk A -> NoDup (A :: map o_point others) ->
    snd (serve (after qs) (Aggregate (sqrt2 := sqrt2) (fh := fh) o1 o2 (Given b pk :: map (fun '(b, o) => Given b (o_key o)) (combine bs others)))) = Some apk ->
    sig_bytes sig S -> in_g1 Y -> 0 < k < r -> Forall (proved Y) others ->
    hash c f SIG_DOMAIN m x (g1_times k Y) -> verify apk sig m x c f = Some true -> answers A Y (extracted k S others).
  Proof.
    intros Fq F1 F2 B1 B2 EL KA ND SV KS IY K F HH V.
    assert (EM : forall bs, length bs = length others -> map g_bytes (map (fun '(b, o) => Given b (o_key o)) (combine bs others)) = map o_key others).
    { clear. induction others as [|o others IH]; intros [|b bs] H; try discriminate H; [reflexivity|]. cbn [combine map g_bytes]. f_equal. apply IH. injection H. auto. }
    assert (BV : Forall (fun v => is_bytes (g_bytes v) = true) (map (fun '(b, o) => Given b (o_key o)) (combine bs others))).
    { apply Forall_map with (f := g_bytes) (P := fun l => is_bytes l = true). rewrite (EM bs EL). apply Forall_map. eapply Forall_impl; [|exact F]. intros o H. exact (proj1 H). }
    assert (FV : Forall2 key_bytes (map o_key others) (map o_point others)).
    { clear - F. induction F as [|o others H F IH]; cbn [map]; constructor; [exact (proj1 (proj2 (proj2 H)))|exact IH]. }
    assert (FI : Forall in_g2 (map o_point others)) by (apply Forall_map; eapply Forall_impl; [|exact F]; intros o H; apply H).
    set (sum := fold_right g2_add None (A :: map o_point others)) in *.
    assert (IS : in_g2 sum) by (apply in_sum; constructor; [apply KA|exact FI]).
    assert (SV' : snd (serve (after qs) (Aggregate (sqrt2 := sqrt2) (fh := fh) o1 o2 (Given b pk :: map (fun '(b, o) => Given b (o_key o)) (combine bs others)))) = Some (public_key_serialize sum)).
    { apply (serve_owed sqrt2 fh sqrt2_ok qs _ _ Fq); [split; [exact F1|split; [exact F2|constructor; [exact B1|exact BV]]]|]. exists sum. split; [|reflexivity].
      exists (A :: map o_point others), (A :: map o_point others). split; [rewrite map_cons, (EM bs EL); constructor; [exact KA|exact FV]|]. split; [exact ND|]. split; [reflexivity|]. reflexivity. }
    rewrite SV in SV'. assert (apk = public_key_serialize sum) by congruence. subst apk. destruct (key_bytes_exact sqrt2 sqrt2_ok sum IS) as (B3 & K3).
    exact (aggregate_answer _ sig m x c f A S Y k others B3 B2 (proj2 (proj2 KA)) K3 KS IY K F HH V).
  Qed.
  (** ** Signatures made without the private key *)
  Lemma g1_times_comm a k : 0 <= a -> 0 <= k -> g1_times a (g1_times k g1_generator) = g1_times k (g1_times a g1_generator).
  Proof.
    intros Ha K. pose proof g1_gen_in as I. rewrite <- (to1_of1 _ I), <- !to1_smul by assumption. rewrite <- !smul_mul, Z.mul_comm. reflexivity.
  Qed.
  Lemma simulated sk m x c f k : is_bytes sk = true -> (32 <= length sk)%nat -> number (firstn 32 sk) < r -> 0 <= k -> hash c f SIG_DOMAIN m x (g1_times k g1_generator) ->
    c_sign GT e L compat ped sqrt sk m x c f = Some (signature_serialize (g1_times k (g1_times (number (firstn 32 sk)) g1_generator))).
  Proof.
    intros B Ln R K HH. apply (sign_iff_c GT e L compat ped sqrt ped_bytes sqrt_ok sk m x c f _ B). exists (g1_times k g1_generator). split; [exact Ln|]. split; [exact R|]. split; [exact HH|].
    f_equal. symmetry. apply g1_times_comm; [apply number_nonneg, B|exact K].
  Qed.
  Lemma simulated_pop sk m k : is_bytes sk = true -> (32 <= length sk)%nat -> number (firstn 32 sk) < r -> 0 <= k -> hash false false POP_DOMAIN m [] (g1_times k g1_generator) ->
    c_sign_pop GT e L compat sqrt sk m = Some (signature_serialize (g1_times k (g1_times (number (firstn 32 sk)) g1_generator))).
  Proof.
    intros B Ln R K HH. apply (sign_pop_iff_c GT e L compat ped sqrt ped_bytes sqrt_ok sk m _ B). exists (g1_times k g1_generator). split; [exact Ln|]. split; [exact R|]. split; [exact HH|].
    f_equal. symmetry. apply g1_times_comm; [apply number_nonneg, B|exact K].
  Qed.
End Reduction.
