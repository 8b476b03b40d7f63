(** The setup of the Pedersen hash, and what its length limit means for the functions built on it. *)
From Coq Require Import Field.
From Verif Require Import Base Prime Constants Group Field Curve BlsModel BitsModel BitsProofs EncodingModel EncodingSpec EncodingProofs Blake2 HasherModel
  PointModel HashCurveModel HashCurveSpec PointProofs CodecModel CodecProofs FfiModel FfiSpec FfiProofs FfiDataProofs HashGadgetModel Edwards PedersenModel PedersenSpec PedersenProofs.
Add Field UseF : fq_field.
Opaque fq_of qadd qmul qsub qopp qinv qdiv.

Lemma some_inj {A} (x y : A) : Some x = Some y -> x = y. Proof. intros H. inversion H. reflexivity. Qed.

(** ** Sampling *)
Lemma denominator_nz x : qsub (qmul ED_D (qmul x x)) q1 <> q0.
Proof.
  intros H. destruct (qeqb x q0) eqn:E.
  - apply qeqb_spec in E. subst x. apply q_1_nz. transitivity (qsub q0 (qsub (qmul ED_D (qmul q0 q0)) q1)); [ring|]. rewrite H. ring.
  - assert (Hx : x <> q0) by (intros ->; rewrite (proj2 (qeqb_spec _ _) eq_refl) in E; discriminate E).
    apply Hx. apply (ed_no_ratio q1 x). apply q_sub_eq.
    transitivity (qsub q0 (qsub (qmul ED_D (qmul x x)) q1)); [ring|]. rewrite H. ring.
Qed.
Lemma ed_on_y2 x y : ed_on (x, y) = true <-> qmul y y = qdiv (qsub (qopp (qmul x x)) q1) (qsub (qmul ED_D (qmul x x)) q1).
Proof.
  rewrite ed_on_eqn. pose proof (denominator_nz x) as D. set (den := qsub (qmul ED_D (qmul x x)) q1) in *. split; intros H.
  - transitivity (qdiv (qmul (qmul y y) den) den); [clearbody den; field; exact D|]. f_equal.
    apply q_sub_eq. transitivity (qsub q0 (ed_eqn x y)); [unfold ed_eqn, den; ring|]. rewrite H. ring.
  - transitivity (qsub (qsub (qopp (qmul x x)) q1) (qmul (qmul y y) den)); [unfold ed_eqn, den; ring|].
    rewrite H. clearbody den. field. exact D.
Qed.
Definition signed_y (g : bool) (y : fq) : Prop := if g then le1 (qopp y) y else le1 y (qopp y).
Lemma qopp_opp y : qopp (qopp y) = y. Proof. ring. Qed.
Lemma ltb_le1 a b : q_ltb a b = false <-> le1 b a.
Proof. unfold q_ltb, le1. rewrite Z.ltb_ge. reflexivity. Qed.
Lemma ed_from_x_iff sqrt x g P : sqrt_spec qmul sqrt ->
  ed_point_from_x sqrt x g = Some P <-> exists y, P = (x, y) /\ ed_on P = true /\ signed_y g y.
Proof.
  intros Hs. unfold ed_point_from_x. cbv zeta.
  destruct (qeqb (qsub (qmul ED_D (qmul x x)) q1) q0) eqn:E; [exfalso; apply qeqb_spec in E; exact (denominator_nz x E)|].
  specialize (Hs (qdiv (qsub (qopp (qmul x x)) q1) (qsub (qmul ED_D (qmul x x)) q1))).
  destruct (sqrt _) as [y|].
  - assert (Q : qmul (qopp y) (qopp y) = qmul y y) by ring.
    assert (S0 : forall y, signed_y g (if xorb (q_ltb y (qopp y)) g then y else qopp y)).
    { clear. intros y. unfold signed_y. destruct (q_ltb y (qopp y)) eqn:L; destruct g; cbn [xorb]; rewrite ?qopp_opp.
      - unfold q_ltb in L. apply Z.ltb_lt in L. unfold le1. lia.
      - unfold q_ltb in L. apply Z.ltb_lt in L. unfold le1. lia.
      - apply ltb_le1. exact L.
      - apply ltb_le1. exact L. }
    split.
    + intros H. inversion H as [H1]. clear H H1. eexists. split; [reflexivity|]. split; [|apply S0].
      apply ed_on_y2. rewrite <- Hs. destruct (xorb _ _); [reflexivity|exact Q].
    + intros (z & -> & On & Sz). f_equal. f_equal. apply ed_on_y2 in On. rewrite <- Hs in On.
      assert (U : z = y \/ z = qopp y).
      { assert (K : qmul (qsub z y) (qadd z y) = q0) by (transitivity (qsub (qmul z z) (qmul y y)); [ring|rewrite On; ring]).
        apply q_integral in K. destruct K as [K|K]; [left; apply q_sub_eq; exact K|right].
        apply q_sub_eq. rewrite <- K. ring. }
      pose proof (S0 y) as Sy. set (w := if xorb (q_ltb y (qopp y)) g then y else qopp y) in *.
      assert (W : w = z \/ w = qopp z).
      { unfold w. destruct U as [-> | ->]; destruct (xorb _ _); rewrite ?qopp_opp; auto. }
      destruct W as [W|W]; [exact W|]. rewrite W in *. unfold signed_y in Sy, Sz. rewrite qopp_opp in Sy.
      apply fq_ext. unfold le1 in *. destruct g; lia.
  - split; [intros H; discriminate H|]. intros (z & -> & On & _). exfalso. apply ed_on_y2 in On. exact (Hs z On).
Qed.
Lemma ed_from_x_unique sqrt sqrt' x g : sqrt_spec qmul sqrt -> sqrt_spec qmul sqrt' -> ed_point_from_x sqrt x g = ed_point_from_x sqrt' x g.
Proof.
  intros H H'. destruct (ed_point_from_x sqrt x g) as [P|] eqn:E.
  - symmetry. apply ed_from_x_iff; [exact H'|]. apply ed_from_x_iff in E; assumption.
  - destruct (ed_point_from_x sqrt' x g) as [P|] eqn:E'; [|reflexivity]. exfalso.
    apply (ed_from_x_iff sqrt' x g P H') in E'. apply (ed_from_x_iff sqrt x g P H) in E'. rewrite E in E'. discriminate E'.
Qed.
Lemma mul_cofactor (Q : ed_grp) : ed_mul_bits ED_COFACTOR_BITS (edp Q) = edp (smul 8 Q).
Proof.
  unfold ed_mul_bits, ED_COFACTOR_BITS. cbn [fold_left]. rewrite <- edp_gz, <- !edp_ga. f_equal.
  rewrite !ga_0_l. rewrite <- (smul_1 Q) at 1 2 3 4 5 6 7 8. rewrite <- !smul_add. reflexivity.
Qed.

Section Setup.
  Context (key : bytes).
  Lemma field_rand_more f n : forall f' r, (f <= f')%nat -> field_rand key f n = Some r -> field_rand key f' n = Some r.
  Proof.
    revert n. induction f as [|f IH]; intros n f' r L H; [discriminate H|]. destruct f' as [|f']; [lia|].
    cbn [field_rand] in *. destruct (_ <? p); [exact H|]. apply IH; [lia|exact H].
  Qed.
  Lemma point_rand_more sqrt f : forall n f' r, (f <= f')%nat -> point_rand key sqrt f n = Some r -> point_rand key sqrt f' n = Some r.
  Proof.
    induction f as [|f IH]; intros n f' r L H; [discriminate H|]. destruct f' as [|f']; [lia|].
    cbn [point_rand] in *. destruct (field_rand key (S f) n) as [[x n']|] eqn:E; [|discriminate H].
    rewrite (field_rand_more (S f) n (S f') _ L E). destruct (ed_point_from_x sqrt x _); [exact H|]. apply IH; [lia|exact H].
  Qed.
  Lemma point_rand_root sqrt sqrt' f : sqrt_spec qmul sqrt -> sqrt_spec qmul sqrt' -> forall n, point_rand key sqrt f n = point_rand key sqrt' f n.
  Proof.
    intros H H'. induction f as [|f IH]; intros n; [reflexivity|]. cbn [point_rand].
    destruct (field_rand key (S f) n) as [[x n']|]; [|reflexivity].
    rewrite (ed_from_x_unique sqrt sqrt' x _ H H'). destruct (ed_point_from_x sqrt' x _); [reflexivity|]. apply IH.
  Qed.
  Lemma create_bases_more sqrt w : forall f n f' r, (f <= f')%nat -> create_bases key sqrt w f n = Some r -> create_bases key sqrt w f' n = Some r.
  Proof.
    induction w as [|w IH]; intros f n f' r L H; [exact H|]. cbn [create_bases] in *.
    destruct (point_rand key sqrt f n) as [[P n']|] eqn:E; [|discriminate H]. rewrite (point_rand_more sqrt f n f' _ L E).
    destruct (create_bases key sqrt w f n') as [l|] eqn:E'; [|discriminate H]. rewrite (IH f n' f' l L E'). exact H.
  Qed.
  Lemma create_bases_root sqrt sqrt' w f : sqrt_spec qmul sqrt -> sqrt_spec qmul sqrt' -> forall n, create_bases key sqrt w f n = create_bases key sqrt' w f n.
  Proof.
    intros H H'. induction w as [|w IH]; intros n; [reflexivity|]. cbn [create_bases]. rewrite (point_rand_root sqrt sqrt' f H H').
    destruct (point_rand key sqrt' f n) as [[P n']|]; [|reflexivity]. rewrite IH. reflexivity.
  Qed.
  Lemma setup_unique sqrt sqrt' f f' g g' : sqrt_spec qmul sqrt -> sqrt_spec qmul sqrt' ->
    crh_setup key sqrt f = Some g -> crh_setup key sqrt' f' = Some g' -> g = g'.
  Proof.
    intros H H'. unfold crh_setup. rewrite (create_bases_root sqrt sqrt' NUM_WINDOWS f H H').
    destruct (create_bases key sqrt' NUM_WINDOWS f 0) as [l|] eqn:E; [|intros K; discriminate K].
    destruct (create_bases key sqrt' NUM_WINDOWS f' 0) as [l'|] eqn:E'; [|intros _ K; discriminate K].
    assert (l = l').
    { destruct (Nat.le_ge_cases f f') as [L|L].
      - rewrite (create_bases_more sqrt' NUM_WINDOWS f 0 f' l L E) in E'. congruence.
      - rewrite (create_bases_more sqrt' NUM_WINDOWS f' 0 f l' L E') in E. congruence. }
    subst l'. congruence.
  Qed.
  (** Every sampled point is eight times a point of the curve. *)
  Lemma point_rand_on sqrt f : sqrt_spec qmul sqrt -> forall n P n', point_rand key sqrt f n = Some (P, n') -> exists Q : ed_grp, P = edp (smul 8 Q).
  Proof.
    intros H. induction f as [|f IH]; intros n P n' E; [discriminate E|]. cbn [point_rand] in E.
    destruct (field_rand key (S f) n) as [[x k]|]; [|discriminate E].
    destruct (ed_point_from_x sqrt x _) as [R|] eqn:ER; [|exact (IH _ _ _ E)].
    apply (f_equal (fun o => match o with Some (a, _) => a | None => ed_zero end)) in E. cbn beta iota in E. subst P.
    apply ed_from_x_iff in ER; [|exact H]. destruct ER as (y & -> & On & _). exists (exist _ (x, y) On : ed_point). exact (mul_cofactor (exist _ (x, y) On : ed_point)).
  Qed.
  Lemma create_bases_on sqrt w f : sqrt_spec qmul sqrt -> forall n l, create_bases key sqrt w f n = Some l ->
    exists Qs : list ed_grp, length Qs = w /\ l = map (fun Q : ed_grp => edp (smul 8 Q)) Qs.
  Proof.
    intros H. induction w as [|w IH]; intros n l E.
    - exists []. split; [reflexivity|]. cbn [create_bases] in E. apply some_inj in E. symmetry. exact E.
    - cbn [create_bases] in E. destruct (point_rand key sqrt f n) as [[P n']|] eqn:EP; [|discriminate E].
      destruct (create_bases key sqrt w f n') as [l'|] eqn:EL; [|discriminate E].
      apply (point_rand_on sqrt f H) in EP. destruct EP as [Q ->]. destruct (IH _ _ EL) as (Qs & L & ->).
      exists (Q :: Qs). split; [cbn [length]; f_equal; exact L|]. apply some_inj in E. symmetry. exact E.
  Qed.
  Lemma double4 (B : ed_grp) : Nat.iter 4 (fun P => ed_add P P) (edp B) = edp (smul 16 B).
  Proof.
    unfold Nat.iter, nat_rect. rewrite <- !edp_ga. f_equal.
  Qed.
  Lemma segment_generators_window n : forall (B : ed_grp), length (segment_generators n (edp B)) = n /\
    forall j, (j < n)%nat -> nth j (segment_generators n (edp B)) ed_zero = edp (smul (16 ^ Z.of_nat j) B).
  Proof.
    induction n as [|n IH]; intros B; [split; [reflexivity|intros j Hj; lia]|]. cbn [segment_generators]. rewrite double4.
    destruct (IH (smul 16 B)) as [L N]. split; [cbn [length]; f_equal; exact L|]. intros [|j] Hj; [reflexivity|].
    cbn [nth]. rewrite N by lia. rewrite <- smul_mul. replace (16 ^ Z.of_nat (S j)) with (16 ^ Z.of_nat j * 16) by (rewrite Nat2Z.inj_succ, Z.pow_succ_r by lia; lia). reflexivity.
  Qed.
  Lemma setup_spec sqrt f gens : sqrt_spec qmul sqrt -> crh_setup key sqrt f = Some gens ->
    exists Bs : list ed_grp, length Bs = 560%nat /\ Forall (fun B => exists Q, B = smul 8 Q) Bs /\ Forall2 window_of Bs gens.
  Proof.
    intros H E. unfold crh_setup in E. destruct (create_bases key sqrt NUM_WINDOWS f 0) as [l|] eqn:EL; [|discriminate E].
    assert (G : gens = map (segment_generators WINDOW_SIZE) l) by congruence. clear E. subst gens.
    destruct (create_bases_on sqrt NUM_WINDOWS f H 0 l EL) as (Qs & L & ->). clear EL. exists (map (smul 8) Qs).
    split; [rewrite map_length; exact L|]. clear L. split.
    - apply Forall_forall. intros B HB. apply in_map_iff in HB. destruct HB as (Q & <- & _). exists Q. reflexivity.
    - induction Qs as [|Q Qs IH]; [constructor|]. cbn [map]. constructor; [apply segment_generators_window|exact IH].
  Qed.
End Setup.

(** ** The length limit *)
Lemma crh_shape Bs gens m : Forall2 window_of Bs gens -> length Bs = 560%nat ->
  (19530 < Z.of_nat (length m) -> composite_crh gens m = Panic) /\
  (Z.of_nat (length m) <= 19530 -> exists out, composite_crh gens m = Ok out).
Proof.
  intros F L. unfold composite_crh, crh_evaluate. change (Z.of_nat (WINDOW_SIZE * NUM_WINDOWS) * 3) with 156240. split; intros H.
  - destruct (Z.ltb_spec 156240 (Z.of_nat (length m) * 8)) as [_|N]; [reflexivity|lia].
  - destruct (Z.ltb_spec 156240 (Z.of_nat (length m) * 8)) as [N|_]; [lia|].
    replace (length gens =? NUM_WINDOWS)%nat with true by (symmetry; apply Nat.eqb_eq; rewrite <- (windows_length Bs gens F); exact L).
    replace (forallb (fun g => (length g =? WINDOW_SIZE)%nat) gens) with true; [eexists; reflexivity|].
    symmetry. apply forallb_forall. intros g Hg. clear - F Hg. induction F as [|B g' Bs gens [W _] F IH]; [destruct Hg|].
    destruct Hg as [->|Hg]; [rewrite W; reflexivity|apply IH; exact Hg].
Qed.
Lemma crh_panic Bs gens m : Forall2 window_of Bs gens -> length Bs = 560%nat ->
  composite_crh gens m = Panic <-> 19530 < Z.of_nat (length m).
Proof.
  intros F L. destruct (crh_shape Bs gens m F L) as [A B]. split; [|exact A]. intros E.
  destruct (Z.lt_ge_cases 19530 (Z.of_nat (length m))) as [H|H]; [exact H|]. destruct (B H) as [out O]. rewrite O in E. discriminate E.
Qed.
Lemma crh_bytes gens m out : composite_crh gens m = Ok out -> is_bytes out = true /\ length out = 48%nat.
Proof.
  unfold composite_crh. destruct (crh_evaluate gens m) as [P| |]; cbn [rbind]; intros E; try discriminate E.
  apply ok_inj in E. subst out. split; [rewrite fq_write_plain; apply le_bytes_is_bytes|apply fq_write_length].
Qed.

Section Limits.
  Context (compat : bool) (E : grp) (of_point : g1_point -> E) (cofactor : Z) (sqrt : fq -> option fq).
  Context (Bs : list ed_grp) (gens : list (list (fq * fq))) (F : Forall2 window_of Bs gens) (LB : length Bs = 560%nat).
  Notation ped := (composite_crh gens).
  Lemma drop_panic (x : result (E * Z)) : rbind x (fun res => Ok (fst res)) = Panic <-> x = Panic.
  Proof. destruct x; cbn [rbind]; split; congruence. Qed.
  Lemma attempt_panic d (m x : bytes) : (length d <= 8)%nat ->
    g1_attempt compat (composite_hasher ped) E of_point cofactor sqrt d m x = Panic <-> 19530 <= Z.of_nat (length x) + Z.of_nat (length m).
  Proof.
    intros Hd. split.
    - intros A. destruct (Z.lt_ge_cases (Z.of_nat (length x) + Z.of_nat (length m)) 19530) as [H|H]; [|exact H]. exfalso. revert A.
      apply composite_attempt_total; [|exact Hd]. intros c K. apply (crh_panic Bs gens _ F LB) in K. cbn [length] in K. rewrite app_length in K. lia.
    - intros H. unfold g1_attempt, hash_with_attempt, counters, NUM_TRIES. cbn [seq map tries]. unfold try_plain at 1. unfold hash. cbn [composite_hasher crh].
      replace (composite_crh gens ([Z.of_nat 0] ++ x ++ m)) with (Panic : result bytes); [reflexivity|]. symmetry. apply (crh_panic Bs gens _ F LB).
      cbn [app length]. rewrite app_length. lia.
  Qed.
  Lemma attempt22_panic d m x : (length d <= 8)%nat ->
    g1_attempt_cip22 compat (composite_hasher ped) E of_point cofactor sqrt d m x = Panic <-> 19530 < Z.of_nat (length m).
  Proof.
    intros Hd. rewrite <- (crh_panic Bs gens m F LB). split.
    - intros A. destruct (ped m) as [o|e|] eqn:K; [| |reflexivity]; exfalso; revert A; (apply cip22_attempt_total; [intros K'; rewrite K in K'; discriminate K'|exact Hd]).
    - intros K. unfold g1_attempt_cip22, hash_with_attempt_cip22. cbn [composite_hasher crh]. rewrite K. reflexivity.
  Qed.
  Lemma hash_panic d (m x : bytes) : (length d <= 8)%nat ->
    (g1_hash compat (composite_hasher ped) E of_point cofactor sqrt d m x = Panic <-> 19530 <= Z.of_nat (length x) + Z.of_nat (length m)) /\
    (g1_hash_cip22 compat (composite_hasher ped) E of_point cofactor sqrt d m x = Panic <-> 19530 < Z.of_nat (length m)).
  Proof.
    intros Hd. split.
    - rewrite <- (attempt_panic d m x Hd). apply drop_panic.
    - rewrite <- (attempt22_panic d m x Hd). apply drop_panic.
  Qed.
End Limits.

Lemma conv_panics {A B} (x : result A) (f : A -> result B) : (forall a, exists b, f a = Ok b) ->
  convert_result_to_bool (store (rbind x f)) = Panics <-> x = Panic.
Proof.
  intros H. destruct x as [a|e|]; cbn [rbind store convert_result_to_bool].
  - destruct (H a) as [b ->]. split; intros K; discriminate K.
  - split; intros K; discriminate K.
  - split; reflexivity.
Qed.
Lemma ffi_hash_panics (E : grp) of_point sqrt rep_of Bs gens m x n : Forall2 window_of Bs gens -> length Bs = 560%nat ->
  (ffi_hash_crh (composite_crh gens) m n = Panics <-> 19530 < Z.of_nat (length m)) /\
  (ffi_hash_composite E of_point sqrt rep_of (composite_crh gens) m x = Panics <-> 19530 <= Z.of_nat (length x) + Z.of_nat (length m)) /\
  (ffi_hash_composite_cip22 E of_point sqrt rep_of (composite_crh gens) m x = Panics <-> 19530 < Z.of_nat (length m)).
Proof.
  intros F L. split; [|split].
  - rewrite <- (crh_panic Bs gens m F L). unfold ffi_hash_crh. apply conv_panics. intros a. eexists. reflexivity.
  - destruct (hash_panic true E of_point G1_COFACTOR sqrt Bs gens F L SIG_DOMAIN m x ltac:(cbn; lia)) as [H _]. rewrite <- H.
    unfold ffi_hash_composite. apply conv_panics. intros a. eexists. reflexivity.
  - rewrite <- (attempt22_panic true E of_point G1_COFACTOR sqrt Bs gens F L SIG_DOMAIN m x ltac:(cbn; lia)).
    unfold ffi_hash_composite_cip22. apply conv_panics. intros [P c]. eexists. reflexivity.
Qed.

(** The hash functions the C entry points use, over a given curve group. *)
Definition lib_composite (pr : pairing) of_point sqrt gens : BlsModel.hasher pr :=
  g1_hash true (composite_hasher (composite_crh gens)) (G1 pr) of_point G1_COFACTOR sqrt.
Definition lib_cip22 (pr : pairing) of_point sqrt gens : BlsModel.hasher pr :=
  g1_hash_cip22 true (composite_hasher (composite_crh gens)) (G1 pr) of_point G1_COFACTOR sqrt.
Lemma sign_panics pr (direct composite cip22 : BlsModel.hasher pr) c f h sk m x : selected direct composite cip22 c f h ->
  ffi_sign_message direct composite cip22 sk m x c f = Panics <-> h SIG_DOMAIN m x = Panic.
Proof.
  intros S0. unfold ffi_sign_message, sign, sign_message, do_hash.
  destruct S0; [destruct (direct SIG_DOMAIN m x)|destruct (composite SIG_DOMAIN m x)|destruct (cip22 SIG_DOMAIN m x)]; cbn; split; intros K; (reflexivity || discriminate K).
Qed.
Lemma short_domain : (length SIG_DOMAIN <= 8)%nat. Proof. cbn. lia. Qed.
Lemma selected_panics pr (direct : BlsModel.hasher pr) of_point sqrt Bs gens f h (m x : bytes) : Forall2 window_of Bs gens -> length Bs = 560%nat ->
  selected direct (lib_composite pr of_point sqrt gens) (lib_cip22 pr of_point sqrt gens) true f h ->
  h SIG_DOMAIN m x = Panic <-> 19530 < Z.of_nat (length m) + (if f then 0 else 1 + Z.of_nat (length x)).
Proof.
  intros F L S0. destruct (hash_panic true (G1 pr) of_point G1_COFACTOR sqrt Bs gens F L SIG_DOMAIN m x short_domain) as [A B].
  inversion S0; subst.
  - unfold lib_composite. rewrite A. lia.
  - unfold lib_cip22. rewrite B. lia.
Qed.
Lemma selected_exists {H} (d c c22 : H) f : exists h, selected d c c22 true f h.
Proof. destruct f; eexists; constructor. Qed.
Lemma ffi_panics pr (direct : BlsModel.hasher pr) of_point sqrt Bs gens f sk pk s (m x : bytes) : Forall2 window_of Bs gens -> length Bs = 560%nat ->
  (ffi_sign_message direct (lib_composite pr of_point sqrt gens) (lib_cip22 pr of_point sqrt gens) sk m x true f = Panics <->
   19530 < Z.of_nat (length m) + (if f then 0 else 1 + Z.of_nat (length x))) /\
  (ffi_verify_signature direct (lib_composite pr of_point sqrt gens) (lib_cip22 pr of_point sqrt gens) pk m x s true f = Panics <->
   19530 < Z.of_nat (length m) + (if f then 0 else 1 + Z.of_nat (length x))).
Proof.
  intros F L. destruct (selected_exists direct (lib_composite pr of_point sqrt gens) (lib_cip22 pr of_point sqrt gens) f) as [h S0].
  rewrite <- (selected_panics pr direct of_point sqrt Bs gens f h m x F L S0). split; [apply sign_panics; exact S0|].
  exact (proj1 (fverify_spec direct _ _ true f h pk m x s S0)).
Qed.
Lemma block_limit Bs gens b m e : Forall2 window_of Bs gens -> length Bs = 560%nat -> wf_block b -> enc_signed b = Ok (m, e) ->
  composite_crh gens m = Panic <-> 206 < Z.of_nat (length (padded_keys b)).
Proof.
  intros F L W E. rewrite (crh_panic Bs gens m F L). destruct (enc_lengths b W) as (_ & _ & _ & m' & e' & E' & Lm & _).
  rewrite E in E'. apply ok_inj in E'. inversion E'; subst m' e'. rewrite Lm. unfold byte_len.
  set (n := Z.of_nat _). clearbody n. clear. pose proof (Z.div_mod (256 + 755 * n + 7) 8 ltac:(lia)). pose proof (Z.mod_pos_bound (256 + 755 * n + 7) 8 ltac:(lia)). lia.
Qed.
Lemma block_limit_plain Bs gens b o c : Forall2 window_of Bs gens -> length Bs = 560%nat -> wf_block b -> enc_plain b = Ok o ->
  composite_crh gens (c :: o) = Panic <-> 206 < Z.of_nat (length (eb_keys b)).
Proof.
  intros F L W E. rewrite (crh_panic Bs gens _ F L). destruct (enc_lengths b W) as (_ & _ & (o' & E' & Lo) & _).
  rewrite E in E'. apply ok_inj in E'. subst o'. cbn [length]. rewrite Nat2Z.inj_succ. unfold byte in *. rewrite Lo. unfold byte_len.
  set (n := Z.of_nat _). clearbody n. clear. pose proof (Z.div_mod (48 + 755 * n + 7) 8 ltac:(lia)). pose proof (Z.mod_pos_bound (48 + 755 * n + 7) 8 ltac:(lia)). lia.
Qed.
Lemma combination_zeros Bs n : combination (repeat 0 n) Bs = gz.
Proof. exact (combination_app_zeros [] Bs n). Qed.
Lemma empty_hash Bs gens : Forall2 window_of Bs gens -> length Bs = 560%nat -> composite_crh gens [] = Ok (repeat 0 48).
Proof.
  intros F L. apply (crh_output Bs gens [] _ F L eq_refl). split; [cbn; lia|]. split; [reflexivity|]. split; [reflexivity|].
  replace (coefficients []) with (repeat 0 560); [|reflexivity]. rewrite combination_zeros. reflexivity.
Qed.
(** ** As the parameter of the circuit model *)
Lemma crh_x_native gens m : native_ped (crh_x gens) m = composite_crh gens m.
Proof.
  unfold native_ped, crh_x, composite_crh. destruct (crh_evaluate gens m) as [h|er|] eqn:E; cbn [rbind].
  - f_equal. symmetry. apply fq_write_plain.
  - unfold crh_evaluate in E. destruct (_ <? _); [discriminate E|]. cbv zeta in E. destruct (negb _); discriminate E.
  - reflexivity.
Qed.
