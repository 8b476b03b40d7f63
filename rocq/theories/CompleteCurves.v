(** Proofs for C80: the two curves. *)
From Coq Require Import Znumtheory Field.
From Verif Require Import Base Constants Group Field Curve EncodingModel PointModel HashCurveModel Circuit GadgetModel CurveGroups CurveFinite CurveOrder CurveCount TwistOrder TwistCount
  SecretProofs CompleteModel CompleteSpec CompleteProofs.
Notation rep1 := (represents fq q0 qmul).
Notation rep2 := (represents fq2 q2_0 q2mul).
Notation two1 := (order_two fq q0).
Notation two2 := (order_two fq2 q2_0).

Lemma g1_to_0 : g1_to gz = None. Proof. rewrite <- g1_of_none. apply g1_to_of. reflexivity. Qed.
Lemma g2_to_0 : g2_to gz = None. Proof. rewrite <- g2_of_none. apply g2_to_of. reflexivity. Qed.
Lemma smul_2 {G : grp} (P : G) : smul 2 P = ga P P.
Proof. change 2 with (1 + 1). rewrite smul_add, !smul_1. reflexivity. Qed.

(** ** No point of order two on the twist *)
Lemma two_g2_number : rel_prime 2 g2_number.
Proof.
  apply prime_rel_prime; [exact prime_2|]. intros D. apply Zdivide_mod in D. assert (E : (g2_number mod 2 =? 1) = true) by (vm_compute; reflexivity).
  apply Z.eqb_eq in E. rewrite D in E. discriminate E.
Qed.
Lemma no_two2 P : on_twist P = true -> ~ two2 P.
Proof.
  intros H T. destruct P as [[x y]|]; [|destruct T]. cbn [order_two] in T. subst y.
  assert (D : smul 2 (g2_of (Some (x, q2_0))) = gz).
  { apply g2_to_inj. rewrite smul_2, g2_to_add, g2_to_0, g2_to_of by exact H. unfold g2_add. cbn [ec_add].
    assert (E : forall a, q2eqb a a = true) by (intros a; apply q2eqb_spec; reflexivity). rewrite !E. cbn [ec_double]. rewrite E. reflexivity. }
  pose proof (two_killers 2 g2_number _ two_g2_number D (fo_kills _ _ g2_order _)) as Z. apply (f_equal g2_to) in Z. rewrite g2_to_0, g2_to_of in Z by exact H. discriminate Z.
Qed.
Lemma twist_add q q' P Q : on_twist P = true -> on_twist Q = true -> rep2 q P -> rep2 q' Q -> rep2 (g2_p_add q q') (g2_add P Q).
Proof.
  intros HP HQ R R'. apply (add_represents fq2 q2_0 q2_1 q2add q2mul q2sub q2opp q2div q2inv q2eqb TWIST_B fq2_field q2eqb_spec q2_two q2_three g2_b_nz q q' P Q HP HQ R R').
  assert (HN : on_twist (g2_neg Q) = true) by exact (ec_neg_on fq2 q2_0 q2_1 q2add q2mul q2sub q2opp q2div q2inv q2eqb TWIST_B fq2_field q2eqb_spec Q HQ).
  apply no_two2. exact (ec_add_on fq2 q2_0 q2_1 q2add q2mul q2sub q2opp q2div q2inv q2eqb TWIST_B fq2_field q2eqb_spec q2_two P (g2_neg Q) HP HN).
Qed.
Lemma twist_add_on P Q : on_twist P = true -> on_twist Q = true -> on_twist (g2_add P Q) = true.
Proof. exact (ec_add_on fq2 q2_0 q2_1 q2add q2mul q2sub q2opp q2div q2inv q2eqb TWIST_B fq2_field q2eqb_spec q2_two P Q). Qed.
Lemma twist_sum_from qs : forall Ps q P, Forall2 rep2 qs Ps -> Forall (fun P => on_twist P = true) Ps -> on_twist P = true -> rep2 q P ->
  rep2 (fold_left g2_p_add qs q) (fold_left g2_add Ps P).
Proof.
  induction qs as [|q1 qs IH]; intros Ps q P F O HP R; inversion F as [|? P1 ? Ps' R1 F']; subst; [exact R|]. inversion O as [|? ? O1 O']; subst.
  cbn [fold_left]. apply IH; [exact F'|exact O'|apply twist_add_on; assumption|apply twist_add; assumption].
Qed.
Lemma rep2_zero : rep2 (p_zero fq2 q2_0 q2_1) None.
Proof. exact (rep_canonical fq2 q2_0 q2_1 q2add q2mul q2sub q2opp q2div q2inv fq2_field None). Qed.
Lemma twist_sum qs Ps : Forall2 rep2 qs Ps -> Forall (fun P => on_twist P = true) Ps -> rep2 (g2_p_aggregate_all qs) (g2_sum Ps).
Proof. intros F O. apply twist_sum_from; [exact F|exact O|reflexivity|exact rep2_zero]. Qed.
Lemma twist_eq q q' (P Q : g2_curve) : rep2 q (g2_to P) -> rep2 q' (g2_to Q) -> g2_p_is_eq q q' = geqb P Q.
Proof.
  intros R R'. pose proof (is_eq_represents fq2 q2_0 q2_1 q2add q2mul q2sub q2opp q2div q2inv q2eqb fq2_field q2eqb_spec q q' _ _ R R') as H.
  apply eq_iff_eq_true. unfold g2_p_is_eq. rewrite H, geqb_spec. split; [apply g2_to_inj|intros ->; reflexivity].
Qed.
Lemma twist_aggregate kb : forall kb' pad acc (padding A : g2_curve), Forall2 (fun '(q, bit) '(K, bit') => bit = bit' /\ rep2 q (g2_to K)) kb kb' ->
  rep2 pad (g2_to padding) -> rep2 acc (g2_to A) ->
  exists q (R : g2_curve) ok, prover (g2_p_aggregate_loop kb pad acc) = Val (q, ok) /\ prover (aggregate_loop kb' padding A) = Val (R, ok) /\ rep2 q (g2_to R) /\
    (forall x, holds (g2_p_aggregate_loop kb pad acc) x <-> ok = true /\ x = q) /\ (forall X, holds (aggregate_loop kb' padding A) X <-> ok = true /\ X = R).
Proof.
  induction kb as [|[k bit] kb IH]; intros kb' pad acc padding A F RP RA; inversion F as [|? kb1 ? kb'' EB F']; subst.
  - exists acc, A, true. cbn [g2_p_aggregate_loop p_aggregate_loop aggregate_loop prover holds]. split; [reflexivity|]. split; [reflexivity|]. split; [exact RA|]. split; intros x; split; intros X; try (destruct X as [_ X]); auto.
  - destruct kb1 as [K bit']. destruct EB as [-> RK]. assert (RS : rep2 (g2_p_add acc (if bit' then k else p_zero fq2 q2_0 q2_1)) (g2_to (ga A (if bit' then K else gz)))).
    { rewrite g2_to_add. apply twist_add; [apply g2_to_on|apply g2_to_on|exact RA|]. destruct bit'; [exact RK|rewrite g2_to_0; exact rep2_zero]. }
    destruct (IH kb'' pad _ padding _ F' RP RS) as (q & R & ok & E1 & E2 & RQ & H1 & H2).
    exists q, R, (negb (geqb K padding && bit') && ok). unfold g2_p_aggregate_loop in *. cbn [p_aggregate_loop aggregate_loop cbind enforce prover holds].
    change (p_is_eq fq2 q2_0 q2mul q2eqb k pad) with (g2_p_is_eq k pad). rewrite (twist_eq k pad K padding RK RP).
    unfold g2_p_add in *. rewrite E1, E2. cbn [smap]. split; [reflexivity|]. split; [reflexivity|]. split; [exact RQ|]. split; intros x; rewrite andb_true_iff.
    + rewrite H1. tauto.
    + rewrite H2. tauto.
Qed.

(** ** Multiples on the curve of G1 *)
Lemma r_large : 2 ^ 252 < r. Proof. apply Z.ltb_lt. vm_compute. reflexivity. Qed.
Lemma small_multiple (P : g1_curve) m : smul G1_COFACTOR P <> gz -> 0 < m < r -> smul m P <> gz.
Proof.
  intros N B E. apply N. apply (two_killers r m).
  - apply (prime_rel_prime r prime_r). intros D. apply Z.divide_pos_le in D; [|apply B]. destruct B. clear - D H0. lia.
  - rewrite <- smul_mul. apply g1_kills.
  - rewrite <- smul_mul, Z.mul_comm, smul_mul, E. apply smul_gz.
Qed.
Lemma apart (P : g1_curve) a i : smul G1_COFACTOR P <> gz -> (i <= 250)%nat -> 0 <= a < 2 ^ Z.of_nat i -> ~ two1 (g1_add (g1_to (smul a P)) (g1_neg (g1_to (smul (2 ^ Z.of_nat i) P)))).
Proof.
  intros N I B T.
  assert (E : g1_add (g1_to (smul a P)) (g1_neg (g1_to (smul (2 ^ Z.of_nat i) P))) = g1_to (smul (a - 2 ^ Z.of_nat i) P)).
  { unfold Z.sub. rewrite smul_add, smul_opp, g1_to_add. f_equal. }
  rewrite E in T. clear E.
  assert (D : smul 2 (smul (a - 2 ^ Z.of_nat i) P) = gz).
  { apply g1_to_inj. rewrite smul_2, g1_to_add, g1_to_0. destruct (g1_to (smul (a - 2 ^ Z.of_nat i) P)) as [[x y]|]; [|destruct T]. cbn [order_two] in T. subst y.
    unfold g1_add. cbn [ec_add]. assert (E : forall z, qeqb z z = true) by (intros z; apply qeqb_spec; reflexivity). rewrite !E. cbn [ec_double]. rewrite E. reflexivity. }
  rewrite <- smul_mul in D. apply (small_multiple P (2 * (2 ^ Z.of_nat i - a)) N).
  - pose proof r_large. assert (2 ^ Z.of_nat i <= 2 ^ 250) by (apply Z.pow_le_mono_r; lia). assert (2 * 2 ^ 250 < 2 ^ 252) by reflexivity.
    set (u := 2 ^ Z.of_nat i) in *. set (v := 2 ^ 250) in *. set (w := 2 ^ 252) in *. clearbody u v w. generalize dependent r. intros rr L. lia.
  - replace (2 * (2 ^ Z.of_nat i - a)) with (- (2 * (a - 2 ^ Z.of_nat i))) by ring. rewrite smul_opp, D. apply gn_0.
Qed.
Lemma mul_loop bits : forall (P : g1_curve) a i res multiple, smul G1_COFACTOR P <> gz -> (i + length bits <= 250)%nat -> 0 <= a < 2 ^ Z.of_nat i ->
  rep1 res (g1_to (smul a P)) -> rep1 multiple (g1_to (smul (2 ^ Z.of_nat i) P)) ->
  rep1 (p_mul_loop fq q1 qadd qmul qsub G1_B bits res multiple) (g1_to (smul (a + 2 ^ Z.of_nat i * bits_value bits) P)).
Proof.
  induction bits as [|bit bits IH]; intros P a i res multiple N L B R M; cbn [p_mul_loop bits_value length] in *; [rewrite Z.mul_0_r, Z.add_0_r; exact R|].
  assert (PW : 2 ^ Z.of_nat (S i) = 2 ^ Z.of_nat i + 2 ^ Z.of_nat i) by (rewrite Nat2Z.inj_succ, Z.pow_succ_r by lia; lia).
  assert (S : rep1 (p_add fq q1 qadd qmul qsub G1_B res multiple) (g1_to (smul (a + 2 ^ Z.of_nat i) P))).
  { rewrite smul_add, g1_to_add. apply (add_represents fq q0 q1 qadd qmul qsub qopp qdiv qinv qeqb G1_B fq_field qeqb_spec q_two q_three g1_b_nz); [apply g1_to_on|apply g1_to_on|exact R|exact M|].
    apply (apart P a i N); [lia|exact B]. }
  assert (D : rep1 (p_double fq q1 qadd qmul qsub G1_B multiple) (g1_to (smul (2 ^ Z.of_nat (Datatypes.S i)) P))).
  { rewrite PW, smul_add, g1_to_add.
    pose proof (double_represents fq q0 q1 qadd qmul qsub qopp qdiv qinv qeqb G1_B fq_field qeqb_spec q_two q_three g1_b_nz multiple _ (g1_to_on _) M) as X.
    destruct (g1_to (smul (2 ^ Z.of_nat i) P)) as [[x y]|]; [|exact X]. unfold g1_add. cbn [ec_add]. assert (E : forall z, qeqb z z = true) by (intros z; apply qeqb_spec; reflexivity). rewrite !E. exact X. }
  assert (L' : (Datatypes.S i + length bits <= 250)%nat) by lia.
  replace (a + 2 ^ Z.of_nat i * ((if bit then 1 else 0) + 2 * bits_value bits)) with ((if bit then a + 2 ^ Z.of_nat i else a) + 2 ^ Z.of_nat (Datatypes.S i) * bits_value bits) by (rewrite PW; destruct bit; ring).
  apply IH; [exact N|exact L'|rewrite PW; destruct bit; lia|destruct bit; [exact S|exact R]|exact D].
Qed.
Lemma mul_represents bits q P : on_g1 P = true -> smul G1_COFACTOR (g1_of P) <> gz -> (length bits <= 250)%nat -> rep1 q P ->
  rep1 (g1_p_mul_le bits q) (g1_to (smul (bits_value bits) (g1_of P))).
Proof.
  intros H N L R. unfold g1_p_mul_le, p_mul_le.
  replace (bits_value bits) with (0 + 2 ^ Z.of_nat 0 * bits_value bits) by (cbn [Z.of_nat]; lia).
  apply mul_loop; [exact N|exact L|cbn; lia| |].
  - change (smul 0 (g1_of P)) with (gz : g1_curve). rewrite g1_to_0. exact (rep_canonical fq q0 q1 qadd qmul qsub qopp qdiv qinv fq_field None).
  - change (2 ^ Z.of_nat 0) with 1. rewrite smul_1, g1_to_of by exact H. exact R.
Qed.
Lemma cofactor_value : bits_value cofactor_bits = G1_COFACTOR. Proof. vm_compute. reflexivity. Qed.
Lemma cofactor_represents q P : on_g1 P = true -> smul G1_COFACTOR (g1_of P) <> gz -> rep1 q P ->
  rep1 (g1_p_scale_by_cofactor q) (g1_to (smul G1_COFACTOR (g1_of P))).
Proof.
  intros H N R. unfold g1_p_scale_by_cofactor. pose proof (mul_represents cofactor_bits q P H N) as X. rewrite cofactor_value in X. apply X; [|exact R].
  unfold cofactor_bits. rewrite map_length, seq_length. apply Nat.leb_le. reflexivity.
Qed.
(** The affine formulas, which divide, have no exceptions there either. *)
Lemma no_exceptions (P : g1_curve) a i : smul G1_COFACTOR P <> gz -> (i <= 250)%nat -> 0 < a < 2 ^ Z.of_nat i ->
  smul a P <> gz /\ smul (2 ^ Z.of_nat i) P <> gz /\ smul a P <> smul (2 ^ Z.of_nat i) P /\ smul a P <> gn (smul (2 ^ Z.of_nat i) P).
Proof.
  intros N I B. pose proof r_large as RL. assert (B1 : 2 ^ Z.of_nat i <= 2 ^ 250) by (apply Z.pow_le_mono_r; lia). assert (B2 : 2 * 2 ^ 250 < 2 ^ 252) by reflexivity.
  set (u := 2 ^ Z.of_nat i) in *. set (v := 2 ^ 250) in *. set (w := 2 ^ 252) in *. clearbody u v w.
  assert (K : forall m, 0 < m < 2 * u -> smul m P <> gz) by (intros m M; apply (small_multiple P m N); revert RL; generalize r; intros rr RL; lia).
  split; [apply K; lia|]. split; [apply K; lia|]. split.
  - intros E. apply (K (u - a)); [lia|]. unfold Z.sub. rewrite smul_add, smul_opp, E, ga_comm. apply gn_l.
  - intros E. apply (K (a + u)); [lia|]. rewrite smul_add, E. apply gn_l.
Qed.

(** ** Addition on the curve of G1 *)
Lemma g1_add_exact q q' P Q : on_g1 P = true -> on_g1 Q = true -> rep1 q P -> rep1 q' Q -> ~ two1 (g1_add P (g1_neg Q)) -> rep1 (g1_p_add q q') (g1_add P Q).
Proof. exact (add_represents fq q0 q1 qadd qmul qsub qopp qdiv qinv qeqb G1_B fq_field qeqb_spec q_two q_three g1_b_nz q q' P Q). Qed.
Lemma g1_add_nothing q q' P Q : on_g1 P = true -> on_g1 Q = true -> rep1 q P -> rep1 q' Q -> two1 (g1_add P (g1_neg Q)) -> g1_p_add q q' = (q0, q0, q0).
Proof.
  intros HP HQ R R' T.
  destruct (rep_is fq q0 q1 qadd qmul qsub qopp qdiv qinv fq_field q P R) as (l & _ & ->).
  destruct (rep_is fq q0 q1 qadd qmul qsub qopp qdiv qinv fq_field q' Q R') as (m & _ & ->).
  unfold g1_p_add. rewrite (add_scale fq q0 q1 qadd qmul qsub qopp qdiv qinv G1_B fq_field).
  rewrite (add_fails fq q0 q1 qadd qmul qsub qopp qdiv qinv qeqb G1_B fq_field qeqb_spec q_two P Q HP HQ T).
  apply (scale_0 fq q0 q1 qadd qmul qsub qopp qdiv qinv fq_field).
Qed.

(** ** The triple (0 : 0 : 0) *)
Section Degenerate.
  Context (K : Type) (k0 k1 : K) (kadd kmul ksub : K -> K -> K) (kopp : K -> K) (kdiv : K -> K -> K) (kinv : K -> K) (keqb : K -> K -> bool) (b : K).
  Context (Kfield : field_theory k0 k1 kadd kmul ksub kopp kdiv kinv eq) (keqb_spec : forall x y, keqb x y = true <-> x = y).
  Add Field KF' : Kfield.
  Notation O := (k0, k0, k0).
  Notation padd := (p_add K k1 kadd kmul ksub b).
  Lemma degenerate_l q : padd O q = O.
  Proof. destruct q as [[X Y] Z]. cbn [p_add]. unfold k3. apply f_equal2; [apply f_equal2|]; ring. Qed.
  Lemma degenerate_r q : padd q O = O.
  Proof. destruct q as [[X Y] Z]. cbn [p_add]. unfold k3. apply f_equal2; [apply f_equal2|]; ring. Qed.
  Lemma degenerate_eq q : p_is_eq K k0 kmul keqb O q = true.
  Proof.
    destruct q as [[X Y] Z]. unfold p_is_eq.
    repeat match goal with |- context [keqb ?x ?y] => replace (keqb x y) with true by (symmetry; apply keqb_spec; ring) end. apply orb_true_r.
  Qed.
  Lemma degenerate_signer kb : forall pad acc x, In (O, true) kb -> ~ holds (p_aggregate_loop K k0 k1 kadd kmul ksub keqb b kb pad acc) x.
  Proof.
    induction kb as [|[k bit] kb IH]; intros pad acc x I; [destruct I|]. cbn [p_aggregate_loop cbind enforce holds]. intros [E H]. destruct I as [I|I].
    - apply (f_equal fst) in I as I1. apply (f_equal snd) in I as I2. cbn [fst snd] in I1, I2. subst k bit. rewrite degenerate_eq in E. discriminate E.
    - exact (IH _ _ _ I H).
  Qed.
  Lemma degenerate_fold qs : fold_left padd qs O = O.
  Proof. induction qs as [|q qs IH]; cbn [fold_left]; [reflexivity|]. rewrite degenerate_l. exact IH. Qed.
  Lemma degenerate_member qs : forall q, In O qs -> fold_left padd qs q = O.
  Proof.
    induction qs as [|q1 qs IH]; intros q I; [destruct I|]. cbn [fold_left]. destruct I as [-> | I]; [|apply IH, I]. rewrite degenerate_r. apply degenerate_fold.
  Qed.
  Lemma degenerate_all qs c : In O qs -> ~ holds (p_to_affine K k1 kmul keqb kinv (p_aggregate_all K k0 k1 kadd kmul ksub b qs)) c.
  Proof.
    intros I. unfold p_aggregate_all. rewrite degenerate_member by exact I. unfold p_to_affine, p_mul_by_inverse. cbn [cbind witness enforce holds].
    intros (i & H & _). apply keqb_spec in H. apply (F_1_neq_0 Kfield). rewrite <- H. ring.
  Qed.
End Degenerate.
Lemma twist_degenerate_signer kb pad acc x : In ((q2_0, q2_0, q2_0), true) kb -> ~ holds (g2_p_aggregate_loop kb pad acc) x.
Proof. exact (degenerate_signer fq2 q2_0 q2_1 q2add q2mul q2sub q2opp q2div q2inv q2eqb TWIST_B fq2_field q2eqb_spec kb pad acc x). Qed.
Lemma twist_degenerate_all qs c : In (q2_0, q2_0, q2_0) qs -> ~ holds (g2_p_to_affine (g2_p_aggregate_all qs)) c.
Proof. exact (degenerate_all fq2 q2_0 q2_1 q2add q2mul q2sub q2opp q2div q2inv q2eqb TWIST_B fq2_field q2eqb_spec qs c). Qed.
Lemma twist_all qs Ps c : Forall2 rep2 qs Ps -> Forall (fun P => on_twist P = true) Ps -> holds (g2_p_to_affine (g2_p_aggregate_all qs)) c <-> g2_sum Ps = Some c.
Proof.
  intros F O. exact (to_affine_represents fq2 q2_0 q2_1 q2add q2mul q2sub q2opp q2div q2inv q2eqb fq2_field q2eqb_spec _ _ c (twist_sum qs Ps F O)).
Qed.
Lemma not_zero q (P : apoint fq) : q = (q0, q0, q0) -> ~ rep1 q P.
Proof. intros -> . destruct P as [[x y]|]; cbn [represents]; [intros (A & _); exact (A eq_refl)|intros (_ & A & _); exact (A eq_refl)]. Qed.
Definition two_point : g1_point := Some (qopp q1, q0).
Lemma g1_refuted : exists q q' P Q, on_g1 P = true /\ on_g1 Q = true /\ rep1 q P /\ rep1 q' Q /\ forall S, ~ rep1 (g1_p_add q q') S.
Proof.
  assert (H : on_g1 two_point = true) by (vm_compute; reflexivity).
  assert (R : rep1 (qopp q1, q0, q1) two_point) by exact (rep_canonical fq q0 q1 qadd qmul qsub qopp qdiv qinv fq_field two_point).
  assert (R' : rep1 (q0, q1, q0) None) by exact (rep_canonical fq q0 q1 qadd qmul qsub qopp qdiv qinv fq_field None).
  exists (qopp q1, q0, q1), (q0, q1, q0), two_point, None. split; [exact H|]. split; [reflexivity|]. split; [exact R|]. split; [exact R'|].
  intros S. apply not_zero. apply (g1_add_nothing _ _ two_point None H eq_refl R R'). reflexivity.
Qed.
