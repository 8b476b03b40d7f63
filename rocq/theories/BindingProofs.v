(** One signature, one key, two requests. *)
From Verif Require Import Base Constants Group Field Curve BlsModel EncodingModel EncodingSpec EncodingProofs HasherModel PointModel HashCurveModel HashCurveSpec
  CodecModel CodecSpec FfiModel CurveGroups CurveOrder CurveCount OrderSpec OrderProofs TwistSpec RealSpec RealModel Edwards PedersenModel PedersenSpec PedersenProofs PedersenUse
  FfiSpec FfiDataProofs FfiRestProofs PropCodec TwistProofs HashCurveProofs PropHashCurve RealProofs BindingSpec.

Lemma same_scalars m m' : (forall i, In i (seq 0 560) -> coefficient m i = coefficient m' i) -> coefficients m = coefficients m'.
Proof. intros H. unfold coefficients. apply map_ext_in, H. Qed.
Lemma collision_linked Bs gens m m' out : Forall2 window_of Bs gens -> length Bs = 560%nat -> is_bytes m = true -> is_bytes m' = true ->
  m <> m' -> composite_crh gens m = Ok out -> composite_crh gens m' = Ok out -> linked Bs m m'.
Proof.
  intros F L H H' N E E'. split; [exact N|]. apply (crh_output Bs gens m out F L H) in E. apply (crh_output Bs gens m' out F L H') in E'.
  destruct E as (Lm & _ & _ & V), E' as (Lm' & _ & _ & V'). assert (X : x_of (combination (coefficients m) Bs) = x_of (combination (coefficients m') Bs)).
  { apply fq_ext. rewrite <- V, <- V'. reflexivity. }
  apply ed_same_x in X. unfold coefficients in X. destruct X as [X|X]; [left|right].
  - unfold relation, differences. split; [rewrite map_length, seq_length; reflexivity|]. split; [|split].
    + destruct (exists_or_all (fun i => coefficient m i - coefficient m' i) (seq 0 560)) as [Y|Y]; [exact Y|].
      exfalso. apply N. apply coefficients_inj; [assumption..|]. apply same_scalars. intros i Hi. specialize (Y i Hi). cbn beta in Y. lia.
    + apply Forall_forall. intros d Hd. apply in_map_iff in Hd. destruct Hd as (i & <- & _). apply small_coefficient.
    + rewrite combination_sub, X. apply gn_r.
  - unfold relation, double_sums. split; [rewrite map_length, seq_length; reflexivity|]. split; [|split].
    + destruct (exists_or_all (fun i => 2 * (coefficient m i + coefficient m' i)) (seq 0 560)) as [Y|Y]; [exact Y|].
      exfalso. apply ed_two_nz. rewrite <- X, <- combination_add. apply PedersenProofs.combination_zeros.
      intros i Hi. specialize (Y i Hi). cbn beta in Y. lia.
    + apply Forall_forall. intros d Hd. apply in_map_iff in Hd. destruct Hd as (i & <- & _). apply small_coefficient.
    + rewrite (combination_scale 2 (fun i => coefficient m i + coefficient m' i)), combination_add, X.
      change (smul 2 ed_two) with (ga ed_two ed_two). apply ed_two_double.
Qed.

Lemma bytes_dec (a b : bytes) : {a = b} + {a <> b}. Proof. apply (list_eq_dec Z.eq_dec). Qed.

Lemma res_bind {A B} (v : result A) (k : A -> result B) b : rbind v k = Ok b -> exists a, v = Ok a /\ k a = Ok b.
Proof. destruct v as [a|?|]; cbn [rbind]; intros H; [exists a; split; [reflexivity|exact H]|discriminate H|discriminate H]. Qed.

Section Bind.
  Context (GT : grp) (e : g1_point -> g2_point -> GT) (L : bilinear e) (compat : bool) (sqrt : fq -> option fq) (sqrt2 : fq2 -> option fq2).
  Context (ped : bytes -> result bytes).
  Hypothesis ped_bytes : forall m out, ped m = Ok out -> is_bytes out = true.
  Hypothesis sqrt_ok : sqrt_spec qmul sqrt.
  Hypothesis sqrt2_ok : sqrt_spec q2mul sqrt2.
  Notation hashed := (hashed compat ped sqrt).
  (** A hash comes from one counter. *)
  Lemma hashed_from c f d m x H : hashed c f d m x H -> exists n a, 0 <= n < 255 /\ expanded ped c f d m x n a /\ H <> None /\ selects compat d a H.
  Proof.
    intros HH. pose proof (proj2 (hashed_in compat ped sqrt ped_bytes sqrt_ok _ _ _ _ _ _ HH)) as NH. destruct HH as (P & n & -> & K). destruct c, f; [| |destruct K|].
    - apply (C25_g1_cip22_least_counter compat _ _ _ _ _ d m x P n (composite_bytes ped ped_bytes) sqrt_ok) in K as (i & Hi & B & (out & X & Lo & G) & _).
      exists n, (n :: x ++ i). split; [exact B|]. split; [exists i; split; [exact Hi|reflexivity]|]. split; [exact NH|]. exists out, P. split; [exact X|]. split; [exact Lo|]. split; [exact G|reflexivity].
    - apply (C25_g1_least_counter compat _ _ _ _ _ d m x P n (composite_bytes ped ped_bytes) sqrt_ok) in K as (B & (out & X & Lo & G) & _).
      unfold hash in X. apply res_bind in X as (a & A & X). exists n, a. split; [exact B|]. split; [exact A|]. split; [exact NH|]. exists out, P. split; [exact X|]. split; [exact Lo|]. split; [exact G|reflexivity].
    - apply (C25_g1_least_counter compat _ _ _ _ _ d m x P n direct_bytes sqrt_ok) in K as (B & (out & X & Lo & G) & _).
      unfold hash in X. apply res_bind in X as (a & A & X). exists n, a. split; [exact B|]. split; [exact A|]. split; [exact NH|]. exists out, P. split; [exact X|]. split; [exact Lo|]. split; [exact G|reflexivity].
  Qed.
  (** Two hashes that a nonzero scalar maps to one point are one. *)
  Lemma same_hash sk H H' : 0 <= sk < r -> sk <> 0 -> in_g1 H -> in_g1 H' -> g1_times sk H = g1_times sk H' -> H = H'.
  Proof.
    intros B N I I' E. destruct (in_g1_of H I) as (Q & K & ->). destruct (in_g1_of H' I') as (Q' & K' & ->). rewrite !g1_times_to in E by apply B. apply g1_to_eq in E.
    f_equal. assert (D : smul sk (ga Q (gn Q')) = gz) by (rewrite smul_ga, smul_gn, E; apply gn_r).
    assert (KD : smul r (ga Q (gn Q')) = gz) by (rewrite smul_ga, smul_gn, K, K', gn_0; apply ga_0_l).
    destruct (geqb (ga Q (gn Q')) gz) eqn:Z.
    - apply geqb_spec in Z. rewrite <- (ga_0_l _ Q'), <- Z, <- ga_assoc, gn_l. symmetry. rewrite ga_comm. apply ga_0_l.
    - exfalso. assert (NZ : ga Q (gn Q') <> gz) by (intros Y; apply geqb_spec in Y; rewrite Y in Z; discriminate Z).
      apply (smul_eq_0_divide _ sk KD NZ) in D. revert D. apply no_multiple; lia.
  Qed.
  (** ** Acceptance of either kind *)
  Definition accepts (c f : bool) (d pk sig m x : bytes) : Prop := exists sk H, 0 <= sk < r /\ hashed c f d m x H /\
    public_key_deserialize sqrt2 g2_test pk = Ok (g2_times sk g2_generator) /\ signature_deserialize sqrt g1_test sig = Ok (g1_times sk H).
  Lemma verify_accepts pk sig m x c f : is_bytes pk = true -> is_bytes sig = true -> c_verify GT e L compat ped sqrt sqrt2 pk sig m x c f = Some true -> accepts c f SIG_DOMAIN pk sig m x.
  Proof. exact (verify_parts GT e L compat ped sqrt sqrt2 ped_bytes sqrt_ok sqrt2_ok pk sig m x c f). Qed.
  Lemma pop_accepts pk sig m : is_bytes pk = true -> is_bytes sig = true -> c_verify_pop GT e L compat sqrt sqrt2 pk sig m = Some true -> accepts false false POP_DOMAIN pk sig m [].
  Proof.
    intros B1 B2 E. unfold c_verify_pop in E. apply then_some in E as (P & H1 & E). apply then_some in E as (S & H2 & E). apply then_some in E as (v & H & E). assert (v = true) as -> by congruence.
    pose proof (proj1 (read_key_iff sqrt2 sqrt2_ok _ _ B1) H1) as (_ & _ & I1). pose proof (proj1 (read_signature_iff sqrt sqrt_ok _ _ B2) H2) as (_ & _ & I2).
    apply (verify_pop_true GT e L compat ped sqrt ped_bytes sqrt_ok) in H as (sk & H & B & HH & -> & ->); [|exact I1|exact I2]. exists sk, H. split; [exact B|]. split; [exact HH|]. split; apply deserialize_iff; assumption.
  Qed.
  Lemma accepted_twice c f d m x c' f' d' m' x' pk sig : is_bytes pk = true -> ~ wire_g2 (number (firstn 96 pk)) None ->
    accepts c f d pk sig m x -> accepts c' f' d' pk sig m' x' ->
    exists n n' a a' H, 0 <= n < 255 /\ 0 <= n' < 255 /\ expanded ped c f d m x n a /\ expanded ped c' f' d' m' x' n' a' /\ H <> None /\ selects compat d a H /\ selects compat d' a' H.
  Proof.
    intros BP NI (sk & H & R & HH & HP & HS) (sk' & H' & R' & HH' & HP' & HS').
    assert (sk' = sk) as -> by (apply g2_unique; [exact R'|exact R|congruence]).
    assert (NS : sk <> 0).
    { intros ->. apply NI. apply key_in_g2 in HP as (_ & W & _); [|exact sqrt2_ok|exact BP]. exact W. }
    assert (E : g1_times sk H = g1_times sk H') by congruence.
    apply (same_hash sk H H' R NS (proj1 (hashed_in compat ped sqrt ped_bytes sqrt_ok _ _ _ _ _ _ HH)) (proj1 (hashed_in compat ped sqrt ped_bytes sqrt_ok _ _ _ _ _ _ HH'))) in E. subst H'.
    destruct (hashed_from _ _ _ _ _ _ HH) as (n & a & B & X & NH & Sl). destruct (hashed_from _ _ _ _ _ _ HH') as (n' & a' & B' & X' & _ & Sl').
    exists n, n', a, a', H. repeat (split; [assumption|]). assumption.
  Qed.
  Lemma different_inputs c f d m x c' f' d' m' x' pk sig : is_bytes pk = true -> ~ wire_g2 (number (firstn 96 pk)) None ->
    (forall n n' a a', expanded ped c f d m x n a -> expanded ped c' f' d' m' x' n' a' -> (d, a) <> (d', a')) ->
    accepts c f d pk sig m x -> accepts c' f' d' pk sig m' x' -> requests_clash compat ped c f d m x c' f' d' m' x'.
  Proof.
    intros BP NI N A A'. destruct (accepted_twice _ _ _ _ _ _ _ _ _ _ _ _ BP NI A A') as (n & n' & a & a' & H & B & B' & X & X' & NH & Sl & Sl').
    exists n, n', a, a'. repeat (split; [assumption|]). split; [exact (N n n' a a' X X')|]. exists H. split; [exact NH|]. split; assumption.
  Qed.
End Bind.

(** ** The composite hasher with its parameters *)
Section Composite.
  Context (GT : grp) (e : g1_point -> g2_point -> GT) (L : bilinear e) (compat : bool) (sqrt : fq -> option fq) (sqrt2 : fq2 -> option fq2).
  Context (Bs : list ed_grp) (gens : list (list (fq * fq))) (F : Forall2 window_of Bs gens) (N560 : length Bs = 560%nat).
  Hypothesis sqrt_ok : sqrt_spec qmul sqrt.
  Hypothesis sqrt2_ok : sqrt_spec q2mul sqrt2.
  Let ped := composite_crh gens.
  Lemma ped_is_bytes m out : ped m = Ok out -> is_bytes out = true. Proof. intros H. exact (proj1 (crh_bytes gens m out H)). Qed.
  Lemma counted_bytes n m x : 0 <= n < 255 -> is_bytes m = true -> is_bytes x = true -> is_bytes (n :: x ++ m) = true.
  Proof. intros H M X. apply BatchProofs.is_bytes_cons. split; [lia|]. rewrite PointProofs.is_bytes_app, M, X. reflexivity. Qed.
  Lemma same_kind c f d m x m' x' pk sig : is_bytes pk = true -> ~ wire_g2 (number (firstn 96 pk)) None ->
    is_bytes m = true -> is_bytes x = true -> is_bytes m' = true -> is_bytes x' = true ->
    accepts compat sqrt sqrt2 ped c f d pk sig m x -> accepts compat sqrt sqrt2 ped c f d pk sig m' x' ->
    same_content f m x m' x' \/ (exists n n', 0 <= n < 255 /\ 0 <= n' < 255 /\ inner_collision Bs c f d m x m' x' n n') \/ requests_clash compat ped c f d m x c f d m' x'.
  Proof.
    intros BP NI M X M' X' A A'.
    destruct (accepted_twice compat sqrt sqrt2 ped ped_is_bytes sqrt_ok sqrt2_ok _ _ _ _ _ _ _ _ _ _ _ _ BP NI A A') as (n & n' & a & a' & H & B & B' & Y & Y' & NH & Sl & Sl').
    destruct (bytes_dec a a') as [<-|Na].
    2: { right. right. exists n, n', a, a'. repeat (split; [assumption|]). split; [congruence|]. exists H. split; [exact NH|]. split; assumption. }
    destruct c, f; cbn [expanded] in Y, Y'; [| |destruct Y|].
    - destruct Y as (i & Hi & ->), Y' as (i' & Hi' & E).
      assert (n = n' /\ x = x' /\ i = i') as (-> & -> & ->).
      { apply (cip22_inputs (composite_hasher ped) 48 d m x i d m' x' i' n n'); [|exact Hi|exact Hi'|exact E]. intros d0 m0 k i0 K. exact (proj2 (crh_bytes gens m0 i0 K)). }
      destruct (bytes_dec m m') as [<-|Nm]; [left; split; reflexivity|]. right. left. exists n', n'. split; [exact B'|]. split; [exact B'|]. exact (collision_linked Bs gens m m' i' F N560 M M' Nm Hi Hi').
    - destruct (bytes_dec (n :: x ++ m) (n' :: x' ++ m')) as [E|Nm]; [left; injection E as _ E; exact E|]. right. left. exists n, n'. split; [exact B|]. split; [exact B'|].
      exact (collision_linked Bs gens _ _ a F N560 (counted_bytes n m x B M X) (counted_bytes n' m' x' B' M' X') Nm Y Y').
    - destruct (bytes_dec (n :: x ++ m) (n' :: x' ++ m')) as [E|Nm]; [left; injection E as _ E; exact E|]. right. left. exists n, n'. split; [exact B|]. split; [exact B'|].
      split; [exact Nm|]. congruence.
  Qed.
  (** Inputs under different flags differ in length. *)
  Lemma width c f d m x n a : expanded ped c f d m x n a -> length a = (if c then if f then 49 + length x else 48 else 32)%nat.
  Proof.
    clear F N560. destruct c, f; cbn [expanded]; intros H.
    - destruct H as (i & Hi & ->). cbn [length]. rewrite app_length, (proj2 (crh_bytes gens m i Hi)). lia.
    - exact (proj2 (crh_bytes gens _ a H)).
    - destruct H.
    - exact (direct_crh_width d (n :: x ++ m) 64 a H).
  Qed.
  Lemma flags_differ c f d m x n a c' f' d' m' x' n' a' : expanded ped c f d m x n a -> expanded ped c' f' d' m' x' n' a' -> (c, f) <> (c', f') -> a <> a'.
  Proof.
    clear F N560. intros H H' N E. subst a'. assert (W : length a = length a) by reflexivity. rewrite (width _ _ _ _ _ _ _ H) in W at 1. rewrite (width _ _ _ _ _ _ _ H') in W.
    destruct c, f, c', f'; cbn [expanded] in H, H'; try (destruct H; fail); try (destruct H'; fail); first [apply N; reflexivity|lia].
  Qed.
End Composite.

(** ** The C interface *)
Section Calls.
  Context (GT : grp) (e : g1_point -> g2_point -> GT) (L : bilinear e) (compat : bool) (sqrt : fq -> option fq) (sqrt2 : fq2 -> option fq2).
  Hypothesis sqrt_ok : sqrt_spec qmul sqrt.
  Hypothesis sqrt2_ok : sqrt_spec q2mul sqrt2.
  Lemma same_content_same_answer ped pk sig m x m' x' c f : same_content f m x m' x' ->
    c_verify GT e L compat ped sqrt sqrt2 pk sig m x c f = c_verify GT e L compat ped sqrt sqrt2 pk sig m' x' c f.
  Proof.
    destruct f; cbn [same_content]; [intros (-> & ->); reflexivity|]. intros H. unfold c_verify, ffi_verify_signature, direct_g1, composite_g1.
    assert (T : forall h (Q : sub g2_curve) (s : sub g1_curve),
      outcome (verify (pr := real_pairing GT e L) (to_hasher GT e L (g1_hash compat h g1_curve g1_of G1_COFACTOR sqrt)) Q m x s) =
      outcome (verify (pr := real_pairing GT e L) (to_hasher GT e L (g1_hash compat h g1_curve g1_of G1_COFACTOR sqrt)) Q m' x' s)).
    { intros h Q s. exact (proj2 (plain_reuse (real_pairing GT e L) compat h g1_curve g1_of G1_COFACTOR sqrt sub_in m x m' x' 0 H) Q s). }
    destruct (read_key sqrt2 pk) as [[|] [Q|]|]; cbn [then_call]; try reflexivity. destruct (read_signature sqrt sig) as [[|] [s|]|]; cbn [then_call]; try reflexivity.
    
    destruct c; exact (f_equal (fun v => then_call (convert_result_to_bool (store (to_is_ok v))) (fun v => Some v)) (T _ (of2 Q) (of1 s))).
  Qed.
  Context (Bs : list ed_grp) (gens : list (list (fq * fq))) (F : Forall2 window_of Bs gens) (N560 : length Bs = 560%nat).
  Notation ped := (composite_crh gens).
  Lemma one_message pk sig m x m' x' c f : is_bytes pk = true -> is_bytes sig = true -> ~ wire_g2 (number (firstn 96 pk)) None ->
    is_bytes m = true -> is_bytes x = true -> is_bytes m' = true -> is_bytes x' = true ->
    c_verify GT e L compat ped sqrt sqrt2 pk sig m x c f = Some true -> c_verify GT e L compat ped sqrt sqrt2 pk sig m' x' c f = Some true ->
    same_content f m x m' x' \/ (exists n n', 0 <= n < 255 /\ 0 <= n' < 255 /\ inner_collision Bs c f SIG_DOMAIN m x m' x' n n') \/
    requests_clash compat ped c f SIG_DOMAIN m x c f SIG_DOMAIN m' x'.
  Proof.
    intros BP BS NI M X M' X' V V'. apply (same_kind compat sqrt sqrt2 Bs gens F N560 sqrt_ok sqrt2_ok c f SIG_DOMAIN m x m' x' pk sig); try assumption;
      apply (verify_accepts GT e L compat sqrt sqrt2 ped (ped_is_bytes gens) sqrt_ok sqrt2_ok); assumption.
  Qed.
  Lemma one_possession pk sig m m' : is_bytes pk = true -> is_bytes sig = true -> ~ wire_g2 (number (firstn 96 pk)) None ->
    is_bytes m = true -> is_bytes m' = true ->
    c_verify_pop GT e L compat sqrt sqrt2 pk sig m = Some true -> c_verify_pop GT e L compat sqrt sqrt2 pk sig m' = Some true ->
    m = m' \/ (exists n n', 0 <= n < 255 /\ 0 <= n' < 255 /\ crh_collision POP_DOMAIN (n :: m) (n' :: m')) \/
    requests_clash compat ped false false POP_DOMAIN m [] false false POP_DOMAIN m' [].
  Proof.
    intros BP BS NI M M' V V'.
    apply (pop_accepts GT e L compat sqrt sqrt2 ped (ped_is_bytes gens) sqrt_ok sqrt2_ok) in V; [|assumption..]. apply (pop_accepts GT e L compat sqrt sqrt2 ped (ped_is_bytes gens) sqrt_ok sqrt2_ok) in V'; [|assumption..].
    exact (same_kind compat sqrt sqrt2 Bs gens F N560 sqrt_ok sqrt2_ok false false POP_DOMAIN m [] m' [] pk sig BP NI M eq_refl M' eq_refl V V').
  Qed.
  Lemma one_mode pk sig m x m' x' c f c' f' : is_bytes pk = true -> is_bytes sig = true -> ~ wire_g2 (number (firstn 96 pk)) None -> (c, f) <> (c', f') ->
    c_verify GT e L compat ped sqrt sqrt2 pk sig m x c f = Some true -> c_verify GT e L compat ped sqrt sqrt2 pk sig m' x' c' f' = Some true ->
    requests_clash compat ped c f SIG_DOMAIN m x c' f' SIG_DOMAIN m' x'.
  Proof.
    intros BP BS NI N V V'. apply (different_inputs compat sqrt sqrt2 ped (ped_is_bytes gens) sqrt_ok sqrt2_ok _ _ _ _ _ _ _ _ _ _ pk sig BP NI).
    - intros n n' a a' Y Y' E. apply (flags_differ gens _ _ _ _ _ _ _ _ _ _ _ _ _ _ Y Y' N). congruence.
    - apply (verify_accepts GT e L compat sqrt sqrt2 ped (ped_is_bytes gens) sqrt_ok sqrt2_ok); assumption.
    - apply (verify_accepts GT e L compat sqrt sqrt2 ped (ped_is_bytes gens) sqrt_ok sqrt2_ok); assumption.
  Qed.
  Lemma one_purpose pk sig m x c f m' : is_bytes pk = true -> is_bytes sig = true -> ~ wire_g2 (number (firstn 96 pk)) None ->
    c_verify GT e L compat ped sqrt sqrt2 pk sig m x c f = Some true -> c_verify_pop GT e L compat sqrt sqrt2 pk sig m' = Some true ->
    requests_clash compat ped c f SIG_DOMAIN m x false false POP_DOMAIN m' [].
  Proof.
    intros BP BS NI V V'. apply (different_inputs compat sqrt sqrt2 ped (ped_is_bytes gens) sqrt_ok sqrt2_ok _ _ _ _ _ _ _ _ _ _ pk sig BP NI).
    - intros n n' a a' _ _ E. apply (f_equal fst) in E. cbn [fst] in E. discriminate E.
    - apply (verify_accepts GT e L compat sqrt sqrt2 ped (ped_is_bytes gens) sqrt_ok sqrt2_ok); assumption.
    - apply (pop_accepts GT e L compat sqrt sqrt2 ped (ped_is_bytes gens) sqrt_ok sqrt2_ok); assumption.
  Qed.
  Lemma signed_bytes b m x : enc_signed b = Ok (m, x) -> is_bytes m = true /\ is_bytes x = true.
  Proof. rewrite enc_signed_eq. intros E. apply ok_pair_inj in E as (<- & <-). split; apply BitsProofs.pack_bytes_is_bytes. Qed.
  Lemma plain_bytes b o : enc_plain b = Ok o -> is_bytes o = true.
  Proof. unfold enc_plain, encode_to_bytes. destruct (enc_total (encode_to_bits g2_coords b)) as (o' & E & B & _). rewrite E. intros K. apply ok_inj in K. subst o. exact B. Qed.
  Lemma one_block pk sig b m x b' m' x' : is_bytes pk = true -> is_bytes sig = true -> ~ wire_g2 (number (firstn 96 pk)) None ->
    wf_block b -> wf_block b' -> enc_signed b = Ok (m, x) -> enc_signed b' = Ok (m', x') ->
    c_verify GT e L compat ped sqrt sqrt2 pk sig m x true true = Some true -> c_verify GT e L compat ped sqrt sqrt2 pk sig m' x' true true = Some true ->
    (eb_index b = eb_index b' /\ eb_round b = eb_round b' /\ eb_max_non_signers b = eb_max_non_signers b' /\
     entropy_value (eb_epoch_entropy b) = entropy_value (eb_epoch_entropy b') /\
     entropy_value (eb_parent_entropy b) = entropy_value (eb_parent_entropy b') /\ padded_keys b = padded_keys b') \/
    linked Bs m m' \/ requests_clash compat ped true true SIG_DOMAIN m x true true SIG_DOMAIN m' x'.
  Proof.
    intros BP BS NI W W' E E' V V'. destruct (signed_bytes _ _ _ E) as (M & X), (signed_bytes _ _ _ E') as (M' & X').
    destruct (one_message pk sig m x m' x' true true BP BS NI M X M' X' V V') as [(-> & ->)|[(n & n' & _ & _ & K)|K]]; [left|right; left; exact K|right; right; exact K].
    apply enc_signed_inj; [exact W|exact W'|congruence].
  Qed.
  Lemma one_block_plain pk sig b o b' o' : is_bytes pk = true -> is_bytes sig = true -> ~ wire_g2 (number (firstn 96 pk)) None ->
    wf_block b -> wf_block b' -> enc_plain b = Ok o -> enc_plain b' = Ok o' ->
    c_verify GT e L compat ped sqrt sqrt2 pk sig o [] true false = Some true -> c_verify GT e L compat ped sqrt sqrt2 pk sig o' [] true false = Some true ->
    (eb_index b = eb_index b' /\ eb_max_non_signers b = eb_max_non_signers b' /\ eb_keys b = eb_keys b') \/
    (exists n n', 0 <= n < 255 /\ 0 <= n' < 255 /\ linked Bs (n :: o) (n' :: o')) \/ requests_clash compat ped true false SIG_DOMAIN o [] true false SIG_DOMAIN o' [].
  Proof.
    intros BP BS NI W W' E E' V V'.
    destruct (one_message pk sig o [] o' [] true false BP BS NI (plain_bytes _ _ E) eq_refl (plain_bytes _ _ E') eq_refl V V') as [K|[K|K]]; [left|right; left; exact K|right; right; exact K].
    cbn [same_content app] in K. subst o'. apply enc_plain_inj; [exact W|exact W'|congruence].
  Qed.
End Calls.
