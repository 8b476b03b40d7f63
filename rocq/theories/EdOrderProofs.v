(** The 2-part of the Edwards curve's group is cyclic of order eight, so clearing the cofactor leaves points of odd order. *)
From Coq Require Import Field.
From Verif Require Import Base Prime Constants Group Field Curve Edwards EdFinite PedersenModel HashCurveSpec PedersenSpec PedersenProofs PedersenUse.

Local Infix "+" := qadd : fq_scope.
Local Infix "*" := qmul : fq_scope.
Local Infix "-" := qsub : fq_scope.
Local Infix "/" := qdiv : fq_scope.
Local Notation "- x" := (qopp x) : fq_scope.
Local Notation "0" := q0 : fq_scope.
Local Notation "1" := q1 : fq_scope.
Local Open Scope fq_scope.
Add Field EdO : fq_field.

(** ** Doubling *)
Definition xof (P : ed_grp) : fq := fst (edp P).
Definition yof (P : ed_grp) : fq := snd (edp P).
Lemma on_eqn (P : ed_grp) : ed_eqn (xof P) (yof P) = 0.
Proof. destruct P as [[x y] H]. exact (proj1 (ed_on_eqn x y) H). Qed.
Lemma point_is (P : ed_grp) x y H : xof P = x -> yof P = y -> P = (exist _ (x, y) H : ed_grp).
Proof. intros X Y. apply edp_ext. cbn [edp proj1_sig]. rewrite <- X, <- Y. apply surjective_pairing. Qed.
Lemma double_raw x y : ed_eqn x y = 0 -> (1 + snd (ed_add (x, y) (x, y))) * (1 - y * y) = (1 - snd (ed_add (x, y) (x, y))) * (1 + x * x).
Proof.
  intros E. destruct (ed_complete x y x y E E) as [_ B]. cbn [ed_add snd]. cbv zeta.
  set (t := ED_D * x * x * y * y) in *. assert (T : t = y * y - x * x - 1).
  { apply q_sub_eq. transitivity (- ed_eqn x y); [unfold t, ed_eqn; ring|]. rewrite E. ring. }
  assert (Z : (y * y + x * x) / (1 - t) * (1 - t) = y * y + x * x). { clearbody t. clear T. set (b := 1 - t) in *. clearbody b. field. exact B. }
  set (z := (y * y + x * x) / (1 - t)) in *. clearbody z. rewrite T in Z. clear T. clearbody t.
  apply q_sub_eq. transitivity (z * (1 - (y * y - x * x - 1)) - (y * y + x * x)); [ring|]. rewrite Z. ring.
Qed.
Lemma double_eq (P : ed_grp) : (1 + yof (ga P P)) * (1 - yof P * yof P) = (1 - yof (ga P P)) * (1 + xof P * xof P).
Proof. destruct P as [[x y] H]. apply double_raw. apply ed_on_eqn. exact H. Qed.
(* the curve equation, solved two ways *)
Lemma curve_x (P : ed_grp) : 1 + xof P * xof P = yof P * yof P * (1 - ED_D * (xof P * xof P)).
Proof. pose proof (on_eqn P) as E. apply q_sub_eq. transitivity (- ed_eqn (xof P) (yof P)); [unfold ed_eqn; ring|]. rewrite E. ring. Qed.
Lemma curve_y (P : ed_grp) : 1 - yof P * yof P = - (xof P * xof P * (1 + ED_D * (yof P * yof P))).
Proof. pose proof (on_eqn P) as E. apply q_sub_eq. transitivity (- ed_eqn (xof P) (yof P)); [unfold ed_eqn; ring|]. rewrite E. ring. Qed.
Lemma curve_xy (P : ed_grp) : (1 - ED_D * (xof P * xof P)) * (1 + ED_D * (yof P * yof P)) = 1 + ED_D.
Proof. pose proof (on_eqn P) as E. apply q_sub_eq. transitivity (ED_D * ed_eqn (xof P) (yof P)); [unfold ed_eqn; ring|]. rewrite E. ring. Qed.
Lemma ratio_nz (P : ed_grp) : 1 - ED_D * (xof P * xof P) <> 0.
Proof.
  intros K. destruct (qeqb (xof P) 0) eqn:E.
  - apply qeqb_spec in E. rewrite E in K. apply q_1_nz. rewrite <- K. ring.
  - assert (Hx : xof P <> 0) by (intros Z; rewrite (proj2 (qeqb_spec _ _) Z) in E; discriminate).
    apply Hx. apply (ed_no_ratio 1 (xof P)). apply q_sub_eq. rewrite <- K. ring.
Qed.

(** ** Constants: square roots of 1 + d and of the non-squares' quotients by -5 *)
Definition e_w : fq := fq_of 114746003788359331572955036721631981279185965709684743587007422802364377000152461256569774057447346697496590284928.
Definition e_v : fq := fq_of 28255874632243215172663208558757668989851393671552958738146707045666313091625146230094128192963062893074949822986.
Definition e_u : fq := fq_of 56839586504540838764419028212904645021567757057057154413648104149867962269803864929348026140372705665870547294007.
Definition m5 : fq := fq_of (-5).
Definition facts_check (w v u d : fq) : bool :=
  qeqb (w * w) (1 + d) && qeqb (d * (1 - m5 * (v * v)) + 1) w && qeqb (d * (m5 * (u * u)) + 1) (- w) &&
  negb (qeqb w 0) && negb (qeqb v 0) && negb (qeqb u 0) && negb (qeqb d 0).
Lemma neq_of a b : negb (qeqb a b) = true -> a <> b.
Proof. intros H E. apply qeqb_spec in E. rewrite E in H. discriminate. Qed.
Lemma facts_of w v u d : facts_check w v u d = true ->
  w * w = 1 + d /\ d * (1 - m5 * (v * v)) + 1 = w /\ d * (m5 * (u * u)) + 1 = - w /\ w <> 0 /\ v <> 0 /\ u <> 0 /\ d <> 0.
Proof.
  unfold facts_check. rewrite !andb_true_iff. intros ((((((A & B) & C) & D) & E) & F) & G).
  apply qeqb_spec in A, B, C. apply neq_of in D, E, F, G. repeat split; assumption.
Qed.
Lemma facts_ok : facts_check e_w e_v e_u ED_D = true. Proof. vm_cast_no_check (eq_refl true). Qed.
Definition e_facts := facts_of _ _ _ _ facts_ok.
(** A point of order eight. *)
Definition e_y : fq := fq_of 75720791047390563842909697553472238877696837800944794837586978875448335400791443538400195549202449056952104058075.
Definition e_x : fq := fq_of 43835777259459316693470163763885427819178300488798426428546719615457028138245481601593804642763966528235861607854.
Lemma eight_on : ed_on (e_x, e_y) = true. Proof. vm_cast_no_check (eq_refl true). Qed.
Definition ed_eight : ed_grp := exist _ (e_x, e_y) eight_on.
Lemma eight_ok : qeqb (1 + e_x * e_x) (1 - e_y * e_y) && negb (qeqb (1 - e_y * e_y) 0) = true. Proof. vm_cast_no_check (eq_refl true). Qed.
Lemma m5_nonsquare s u : s * s = m5 * (u * u) -> u = 0.
Proof.
  intros H. destruct (qeqb u 0) eqn:E; [apply qeqb_spec; exact E|exfalso].
  assert (Hu : u <> 0) by (intros Z; rewrite (proj2 (qeqb_spec _ _) Z) in E; discriminate).
  assert (K : (s / u) * (s / u) = m5). { transitivity (s * s / (u * u)); [field; exact Hu|]. rewrite H. field. exact Hu. }
  apply (f_equal fqv) in K. apply (minus5_nonresidue (fqv (s / u))). apply eqp_mod. exact K.
Qed.
Lemma square_zero a : a * a = 0 -> a = 0.
Proof. intros H. apply q_integral in H. destruct H; assumption. Qed.

(** ** Points of order 2, 4, 8 and 16 *)
Lemma two_cases (P : ed_grp) : ga P P = gz -> P = gz \/ P = ed_two.
Proof.
  intros H. pose proof (double_eq P) as D. rewrite H in D. change (yof gz) with q1 in D.
  assert (Y : yof P * yof P = 1).
  { apply q_sub_eq. assert (K : (1 + 1) * (1 - yof P * yof P) = 0) by (rewrite D; ring).
    apply q_integral in K. destruct K as [K|K]; [destruct (q_2_nz K)|]. transitivity (- (1 - yof P * yof P)); [ring|]. rewrite K. ring. }
  assert (X : xof P = 0).
  { pose proof (curve_y P) as C. rewrite Y in C. apply square_zero. destruct e_facts as (W & _ & _ & Wn & _).
    assert (K : xof P * xof P * (e_w * e_w) = 0). { rewrite W. transitivity (- - (xof P * xof P * (1 + ED_D * 1))); [ring|]. rewrite <- C. ring. }
    apply q_integral in K. destruct K as [K|K]; [exact K|]. destruct (Wn (square_zero _ K)). }
  assert (K : (yof P - 1) * (yof P + 1) = 0) by (transitivity (yof P * yof P - 1); [ring|]; rewrite Y; ring).
  apply q_integral in K. destruct K as [K|K]; [left|right]; apply point_is; try exact X; apply q_sub_eq; rewrite <- K; ring.
Qed.
Lemma half_of_two (P : ed_grp) : ga P P = ed_two -> yof P = 0.
Proof.
  intros H. pose proof (double_eq P) as D. rewrite H in D. change (yof ed_two) with (- q1) in D.
  assert (X : 1 + xof P * xof P = 0).
  { assert (K : (1 + 1) * (1 + xof P * xof P) = 0) by (transitivity ((1 - - q1) * (1 + xof P * xof P)); [ring|]; rewrite <- D; ring).
    apply q_integral in K. destruct K as [K|K]; [destruct (q_2_nz K)|exact K]. }
  rewrite curve_x in X. apply q_integral in X. destruct X as [X|X]; [exact (square_zero _ X)|destruct (ratio_nz P X)].
Qed.
(** A point of order eight has 1 - y^2 equal to a fixed non-square. *)
Lemma order_eight (P : ed_grp) : yof (ga P P) = 0 -> 1 - yof P * yof P = m5 * (e_v * e_v).
Proof.
  intros H. pose proof (double_eq P) as D. rewrite H in D. pose proof (on_eqn P) as E. unfold ed_eqn in E.
  destruct e_facts as (W & V & U & Wn & Vn & Un & Dn).
  assert (X : xof P * xof P = - (yof P * yof P)). { apply q_sub_eq. transitivity ((1 - 0) * (1 + xof P * xof P) - (1 + 0) * (1 - yof P * yof P)); [ring|]. rewrite D. ring. }
  rewrite X in E. set (s := yof P * yof P) in *.
  assert (K : (ED_D * s + 1 - e_w) * (ED_D * s + 1 + e_w) = 0).
  { transitivity ((ED_D * s + 1) * (ED_D * s + 1) - e_w * e_w); [ring|]. rewrite W.
    transitivity (ED_D * (s - - s - 1 - ED_D * (- s * s))); [ring|]. rewrite E. ring. }
  apply q_integral in K. destruct K as [K|K].
  - assert (L : ED_D * (s - (1 - m5 * (e_v * e_v))) = 0). { rewrite <- V in K. rewrite <- K. ring. }
    apply q_integral in L. destruct L as [L|L]; [destruct (Dn L)|]. apply q_sub_eq. transitivity (- (s - (1 - m5 * (e_v * e_v)))); [ring|]. rewrite L. ring.
  - exfalso. assert (L : ED_D * (s - m5 * (e_u * e_u)) = 0). { assert (Z : e_w = - (ED_D * (m5 * (e_u * e_u)) + 1)) by (rewrite U; ring). rewrite Z in K. rewrite <- K. ring. }
    apply q_integral in L. destruct L as [L|L]; [exact (Dn L)|]. apply q_sub_eq in L. exact (Un (m5_nonsquare _ _ L)).
Qed.
(** ... so it is not the double of a point. *)
Lemma not_double (P : ed_grp) : 1 - yof (ga P P) * yof (ga P P) <> m5 * (e_v * e_v).
Proof.
  intros H. pose proof (double_eq P) as D. destruct e_facts as (W & _ & _ & Wn & Vn & _). set (c := yof (ga P P)) in *.
  set (x := xof P) in *. set (y := yof P) in *. set (h := 1 - ED_D * (x * x)).
  assert (CX : 1 + x * x = y * y * h) by exact (curve_x P). assert (CY : 1 - y * y = - (x * x * (1 + ED_D * (y * y)))) by exact (curve_y P).
  assert (CXY : h * (1 + ED_D * (y * y)) = 1 + ED_D) by exact (curve_xy P). assert (Hh : h <> 0) by exact (ratio_nz P). clearbody h.
  assert (S : ((1 + c) * (q_i * x * e_w)) * ((1 + c) * (q_i * x * e_w)) = m5 * ((e_v * (y * h)) * (e_v * (y * h)))).
  { transitivity ((1 + c) * (1 + c) * (q_i * q_i) * (x * x) * (e_w * e_w)); [ring|]. rewrite q_i_sq, W, <- CXY.
    transitivity ((1 + c) * h * ((1 + c) * - (x * x * (1 + ED_D * (y * y))))); [ring|]. rewrite <- CY, D, CX.
    transitivity ((1 - c * c) * (y * y * (h * h))); [ring|]. rewrite H. ring. }
  apply m5_nonsquare in S. apply q_integral in S. destruct S as [S|S]; [exact (Vn S)|]. apply q_integral in S. destruct S as [Y|S]; [|exact (Hh S)].
  rewrite CX, Y in D. assert (C : 1 + c = 0). { transitivity ((1 + c) * (1 - 0 * 0)); [ring|]. rewrite D. ring. }
  assert (Z : m5 * (e_v * e_v) = 0). { rewrite <- H. transitivity ((1 + c) * (1 - c)); [ring|]. rewrite C. ring. }
  apply Vn. apply (m5_nonsquare 0). rewrite Z. ring.
Qed.
(** ** The point of order eight *)
Lemma eight_gen (P : ed_grp) : qeqb (1 + xof P * xof P) (1 - yof P * yof P) && negb (qeqb (1 - yof P * yof P) 0) = true -> yof (ga P P) = 0.
Proof.
  rewrite andb_true_iff. intros [A B]. apply qeqb_spec in A. apply neq_of in B. pose proof (double_eq P) as D. rewrite A in D.
  assert (K : (1 + 1) * (yof (ga P P) * (1 - yof P * yof P)) = 0).
  { transitivity ((1 + yof (ga P P)) * (1 - yof P * yof P) - (1 - yof (ga P P)) * (1 - yof P * yof P)); [ring|]. rewrite D. ring. }
  apply q_integral in K. destruct K as [K|K]; [destruct (q_2_nz K)|]. apply q_integral in K. destruct K as [K|K]; [exact K|destruct (B K)].
Qed.
Lemma eight_four (P : ed_grp) : yof P = 0 -> yof (ga P P) = - q1.
Proof.
  intros H. pose proof (double_eq P) as D. rewrite curve_x, H in D. apply q_sub_eq.
  transitivity ((1 + yof (ga P P)) * (1 - 0 * 0)); [ring|]. rewrite D. ring.
Qed.
Lemma minus_one_is (P : ed_grp) : yof P = - q1 -> P = ed_two.
Proof.
  intros H. apply point_is; [|exact H]. pose proof (curve_y P) as C. rewrite H in C. apply square_zero. destruct e_facts as (W & _ & _ & Wn & _).
  assert (K : xof P * xof P * (e_w * e_w) = 0). { rewrite W. transitivity (- - (xof P * xof P * (1 + ED_D * (- q1 * - q1)))); [ring|]. rewrite <- C. ring. }
  apply q_integral in K. destruct K as [K|K]; [exact K|]. destruct (Wn (square_zero _ K)).
Qed.
Local Close Scope fq_scope.
Local Open Scope Z_scope.
Lemma smul_double (G : grp) (k : Z) (P : G) : smul (2 * k) P = ga (smul k P) (smul k P).
Proof. replace (2 * k) with (k + k) by lia. apply smul_add. Qed.
(** No point has order sixteen. *)
Lemma no_sixteen (P : ed_grp) : smul 16 P = gz -> smul 8 P = gz.
Proof.
  intros H. change 16 with (2 * 8) in H. rewrite smul_double in H. apply two_cases in H. destruct H as [H|H]; [exact H|exfalso].
  change 8 with (2 * 4) in H. rewrite smul_double in H. apply half_of_two in H. change 4 with (2 * 2) in H. rewrite smul_double in H.
  apply order_eight in H. change 2 with (2 * 1) in H. rewrite smul_double, smul_1 in H. exact (not_double P H).
Qed.
Lemma no_power k (P : ed_grp) : smul (2 ^ Z.of_nat k * 8) P = gz -> smul 8 P = gz.
Proof.
  revert P. induction k as [|k IH]; intros P H; [exact H|]. apply IH.
  assert (E : smul 8 (smul (2 ^ Z.of_nat k) P) = gz).
  { apply no_sixteen. rewrite <- smul_mul. rewrite <- H. f_equal. rewrite Nat2Z.inj_succ, Z.pow_succ_r by lia. ring. }
  rewrite Z.mul_comm, smul_mul. exact E.
Qed.
Lemma odd_part n : 0 < n -> exists k m, Z.odd m = true /\ 0 < m /\ n = 2 ^ Z.of_nat k * m.
Proof.
  intros H. assert (A : forall b a, 0 < a -> a < 2 ^ Z.of_nat b -> exists k m, Z.odd m = true /\ 0 < m /\ a = 2 ^ Z.of_nat k * m).
  { induction b as [|b IH]; intros a H0 H1; [cbn in H1; lia|]. destruct (Z.odd a) eqn:O; [exists 0%nat, a; repeat split; [exact O|exact H0|lia]|].
    assert (E : a = 2 * (a / 2)). { rewrite (Z.div_mod a 2) at 1 by lia. rewrite Zmod_odd, O. lia. }
    rewrite Nat2Z.inj_succ, Z.pow_succ_r in H1 by lia. destruct (IH (a / 2)) as (k & m & A & B & C); [lia|lia|].
    exists (S k), m. repeat split; [exact A|exact B|]. rewrite Nat2Z.inj_succ, Z.pow_succ_r by lia. rewrite E, C at 1. ring. }
  apply (A (Z.to_nat n) n H). rewrite Z2Nat.id by lia. apply Z.pow_gt_lin_r; lia.
Qed.
(** Eight times any point has odd order. *)
Lemma cofactor_odd : exists n, Z.odd n = true /\ 0 < n /\ forall P : ed_grp, smul n (smul 8 P) = gz.
Proof.
  destruct ed_finite as (N & HN & K). destruct (odd_part N HN) as (k & m & O & Hm & E). exists m. split; [exact O|]. split; [exact Hm|]. intros P.
  rewrite <- smul_mul, Z.mul_comm, smul_mul. apply (no_power k). rewrite <- !smul_mul.
  replace (2 ^ Z.of_nat k * 8 * m) with (8 * N) by (rewrite E; ring). rewrite smul_mul, K. apply smul_gz.
Qed.
Lemma base_odd : exists n, Z.odd n = true /\ 0 < n /\ forall B : ed_grp, (exists Q, B = smul 8 Q) -> smul n B = gz.
Proof.
  destruct cofactor_odd as (n & A & B & C). exists n. split; [exact A|]. split; [exact B|]. intros P (Q & ->). apply C.
Qed.
(** The bound is reached: a point of order eight, whose multiple by four is (0, -1). *)
Lemma eight_four_gen (P : ed_grp) : yof (ga P P) = q0 -> smul 4 P = ed_two.
Proof.
  intros H. change 4 with (2 * (2 * 1)). rewrite !smul_double, smul_1. apply minus_one_is, eight_four. exact H.
Qed.
Lemma eight_reached : exists P : ed_grp, smul 8 P = gz /\ smul 4 P <> gz.
Proof.
  exists ed_eight. assert (H : smul 4 ed_eight = ed_two) by exact (eight_four_gen ed_eight (eight_gen ed_eight eight_ok)).
  split; [|rewrite H; exact ed_two_nz]. change 8 with (2 * 4). rewrite smul_double, H. exact ed_two_double.
Qed.

(** ** The hash *)
Lemma digest_equal n Bs gens m m' : Z.odd n = true -> Forall (fun B => smul n B = gz) Bs ->
  Forall2 window_of Bs gens -> length Bs = 560%nat -> is_bytes m = true -> is_bytes m' = true ->
  Z.of_nat (length m) <= 19530 -> Z.of_nat (length m') <= 19530 ->
  composite_crh gens m = composite_crh gens m' <-> combination (coefficients m) Bs = combination (coefficients m') Bs.
Proof.
  intros O FO F L H H' Lm Lm'. destruct (proj2 (crh_shape Bs gens m F L) Lm) as (out & E). split.
  - intros C. rewrite E in C. apply (collision_odd n Bs gens m m' out); auto.
  - intros C. rewrite E. symmetry. apply (crh_output Bs gens m' out F L H'). apply (crh_output Bs gens m out F L H) in E.
    destruct E as (_ & A & B & V). rewrite <- C. repeat split; assumption.
Qed.
Lemma window_base (B B' : ed_grp) g : window_of B g -> window_of B' g -> B = B'.
Proof.
  intros [_ H] [_ H']. specialize (H 0%nat ltac:(lia)). specialize (H' 0%nat ltac:(lia)). rewrite H in H'. apply edp_ext in H'.
  change (16 ^ Z.of_nat 0) with 1 in H'. rewrite !smul_1 in H'. exact H'.
Qed.
Lemma windows_bases (Bs Bs' : list ed_grp) gens : Forall2 window_of Bs gens -> Forall2 window_of Bs' gens -> Bs = Bs'.
Proof.
  intros F. revert Bs'. induction F as [|B g Bs gens H F IH]; intros Bs' F'; inversion F' as [|B' g' Bs'' gens' H' F'']; subst; [reflexivity|].
  f_equal; [exact (window_base B B' g H H')|exact (IH _ F'')].
Qed.
Lemma setup_bases key sqrt fuel gens (Bs : list ed_grp) : sqrt_spec qmul sqrt -> crh_setup key sqrt fuel = Some gens -> Forall2 window_of Bs gens ->
  length Bs = 560%nat /\ Forall (fun B => exists Q, B = smul 8 Q) Bs.
Proof.
  intros HS HG F. destruct (setup_spec key sqrt fuel gens HS HG) as (Bs' & L & E & F'). rewrite (windows_bases Bs Bs' gens F F'). split; [exact L|exact E].
Qed.
Lemma cleared_digest (Bs : list ed_grp) gens m m' : Forall (fun B => exists Q, B = smul 8 Q) Bs -> Forall2 window_of Bs gens -> length Bs = 560%nat ->
  is_bytes m = true -> is_bytes m' = true -> Z.of_nat (length m) <= 19530 -> Z.of_nat (length m') <= 19530 ->
  composite_crh gens m = composite_crh gens m' <-> combination (coefficients m) Bs = combination (coefficients m') Bs.
Proof.
  intros C F L. destruct base_odd as (n & O & _ & K). intros. apply (digest_equal n); try assumption.
  eapply Forall_impl; [|exact C]. exact K.
Qed.
Lemma cleared_difference (Bs : list ed_grp) gens m m' out : Forall (fun B => exists Q, B = smul 8 Q) Bs -> Forall2 window_of Bs gens -> length Bs = 560%nat ->
  is_bytes m = true -> is_bytes m' = true -> m <> m' -> composite_crh gens m = Ok out -> composite_crh gens m' = Ok out ->
  relation (map (fun i => coefficient m i - coefficient m' i) (seq 0 560)) Bs.
Proof.
  intros C F L H H' N E E'. assert (E0 := E). assert (E0' := E').
  apply (crh_output Bs gens m out F L H) in E0. apply (crh_output Bs gens m' out F L H') in E0'. destruct E0 as (Lm & _), E0' as (Lm' & _).
  assert (X : combination (coefficients m) Bs = combination (coefficients m') Bs) by (apply (cleared_digest Bs gens); try assumption; rewrite E, E'; reflexivity).
  unfold coefficients in X. split; [rewrite map_length, seq_length; reflexivity|]. split; [|split].
  - destruct (exists_or_all (fun i => coefficient m i - coefficient m' i) (seq 0 560)) as [Y|Y]; [exact Y|].
    exfalso. apply N. apply coefficients_inj; [assumption..|]. unfold coefficients. apply map_ext_in.
    intros i Hi. specialize (Y i Hi). cbn beta in Y. lia.
  - apply Forall_forall. intros d Hd. apply in_map_iff in Hd. destruct Hd as (i & <- & _). apply small_coefficient.
  - rewrite combination_sub, X. apply gn_r.
Qed.
(** Without clearing, half of the digest's information can be lost: a point and the point plus (0, -1), negated, have the same x coordinate. *)
Lemma uncleared (P : ed_grp) : fst (edp (ga ed_two (gn P))) = fst (edp P).
Proof.
  destruct P as [[x y] H]. change (fst (ed_add (q0, qopp q1) (qopp x, y)) = x). cbn [ed_add fst]. cbv zeta.
  replace (qmul (qmul (qmul (qmul ED_D q0) (qopp x)) (qopp q1)) y) with q0 by ring. replace (qadd q1 q0) with q1 by ring. rewrite q_div_1. ring.
Qed.
Lemma cleared_same_x (P Q P' Q' : ed_grp) : P = smul 8 P' -> Q = smul 8 Q' -> fst (edp P) = fst (edp Q) -> P = Q.
Proof.
  intros -> -> X. destruct cofactor_odd as (n & O & _ & K). exact (odd_order_x n _ _ O (K P') (K Q') X).
Qed.
Lemma uncleared_differs (P : ed_grp) : fst (edp (ga ed_two (gn P))) = fst (edp P) /\ (forall n, Z.odd n = true -> smul n P = gz -> ga ed_two (gn P) <> P).
Proof.
  split; [apply uncleared|]. intros n O H E. apply ed_two_nz. rewrite <- (smul_odd_two n O).
  assert (T : ed_two = ga P P). { rewrite <- E at 1. rewrite <- ga_assoc, gn_l, ga_0_r. reflexivity. }
  rewrite T, smul_ga, H. apply ga_0_l.
Qed.
