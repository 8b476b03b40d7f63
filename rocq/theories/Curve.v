(** Short Weierstrass curves y^2 = x^3 + b in affine coordinates (ark-ec, a dependency): the addition
    law of [ProjectiveCurve], written for affine representatives, and closure of the curve under it. *)
From Coq Require Import Field Znumtheory Eqdep_dec.
From Verif Require Import Base Prime Constants Field.

Section Affine.
  Context (K : Type) (k0 k1 : K) (kadd kmul ksub : K -> K -> K) (kopp : K -> K) (kdiv : K -> K -> K) (kinv : K -> K).
  Context (keqb : K -> K -> bool).
  Context (b : K).

  (** A finite point or the point at infinity. *)
  Definition apoint := option (K * K).
  Definition on_curve (P : apoint) : bool :=
    match P with
    | None => true
    | Some (x, y) => keqb (kmul y y) (kadd (kmul x (kmul x x)) b)
    end.
  (** [ProjectiveCurve::double] and [+=], followed by [into_affine]. *)
  Definition slope_point (l x1 y1 x2 : K) : K * K :=
    let x3 := ksub (ksub (kmul l l) x1) x2 in (x3, ksub (kmul l (ksub x1 x3)) y1).
  Definition ec_double (P : apoint) : apoint :=
    match P with
    | None => None
    | Some (x, y) =>
      if keqb y k0 then None
      else Some (slope_point (kdiv (kmul (kadd k1 (kadd k1 k1)) (kmul x x)) (kadd y y)) x y x)
    end.
  Definition ec_add (P Q : apoint) : apoint :=
    match P, Q with
    | None, _ => Q
    | _, None => P
    | Some (x1, y1), Some (x2, y2) =>
      if keqb x1 x2 then (if keqb y1 y2 then ec_double P else None)
      else Some (slope_point (kdiv (ksub y2 y1) (ksub x2 x1)) x1 y1 x2)
    end.
  Definition ec_neg (P : apoint) : apoint :=
    match P with None => None | Some (x, y) => Some (x, kopp y) end.
  Definition ec_sum (l : list apoint) : apoint := fold_left ec_add l None.

  Hypothesis Kfield : field_theory k0 k1 kadd kmul ksub kopp kdiv kinv (@eq K).
  Hypothesis keqb_spec : forall x y, keqb x y = true <-> x = y.
  Hypothesis two_nz : kadd k1 k1 <> k0.
  Add Field KF : Kfield.
  Notation "x +! y" := (kadd x y) (at level 50, left associativity).
  Notation "x *! y" := (kmul x y) (at level 40, left associativity).
  Notation "x -! y" := (ksub x y) (at level 50, left associativity).

  Lemma k_integral x y : x *! y = k0 -> x <> k0 -> y = k0.
  Proof. intros H Hx. transitivity (kinv x *! (x *! y)); [field; assumption|]. rewrite H. ring. Qed.
  Lemma k_sub_0 x y : x -! y = k0 -> x = y.
  Proof. intros H. transitivity ((x -! y) +! y); [ring|]. rewrite H. ring. Qed.

  Lemma slope_point_on l x1 y1 x2 :
    y1 *! y1 = x1 *! (x1 *! x1) +! b ->
    (let x3 := (l *! l) -! x1 -! x2 in
     (k1 +! k1) *! (l *! (l *! x1 -! y1)) = x1 *! x2 +! x1 *! x3 +! x2 *! x3) ->
    on_curve (Some (slope_point l x1 y1 x2)) = true.
  Proof.
    intros H1 Ha. cbn zeta in Ha. cbn [on_curve slope_point]. apply keqb_spec.
    set (x3 := l *! l -! x1 -! x2) in *. apply k_sub_0.
    assert (Hb : b = y1 *! y1 -! x1 *! (x1 *! x1)) by (rewrite H1; ring). rewrite Hb.
    set (e := (k1 +! k1) *! (l *! (l *! x1 -! y1)) -! (x1 *! x2 +! x1 *! x3 +! x2 *! x3)).
    assert (He : e = k0) by (unfold e; rewrite Ha; ring).
    transitivity (kopp e *! (x3 -! x1)); [|rewrite He; ring].
    unfold e, x3. ring.
  Qed.

  Lemma ec_double_on P : on_curve P = true -> on_curve (ec_double P) = true.
  Proof.
    destruct P as [[x y]|]; [|reflexivity]. intros H. cbn [ec_double].
    destruct (keqb y k0) eqn:E; [reflexivity|].
    assert (Hy : y <> k0) by (intros Z; apply keqb_spec in Z; congruence).
    assert (H2y : y +! y <> k0).
    { intros Z. apply Hy, (k_integral (k1 +! k1)); [rewrite <- Z; ring|assumption]. }
    cbn [on_curve] in H. apply keqb_spec in H. apply slope_point_on; [assumption|]. cbn zeta.
    set (l := kdiv _ _). assert (Hl : l *! (y +! y) = (k1 +! (k1 +! k1)) *! (x *! x)) by (unfold l; field; assumption).
    apply k_sub_0. transitivity ((k1 +! (k1 +! k1)) *! (x *! x) -! l *! (y +! y)); [ring|]. rewrite Hl. ring.
  Qed.

  Lemma ec_add_on P Q : on_curve P = true -> on_curve Q = true -> on_curve (ec_add P Q) = true.
  Proof.
    destruct P as [[x1 y1]|]; [|trivial]. destruct Q as [[x2 y2]|]; [|trivial]. intros HP HQ.
    cbn [ec_add]. destruct (keqb x1 x2) eqn:Ex.
    - destruct (keqb y1 y2); [apply ec_double_on, HP|reflexivity].
    - cbn [on_curve] in HP, HQ. apply keqb_spec in HP, HQ. apply slope_point_on; [assumption|]. cbn zeta.
      assert (Hd : x2 -! x1 <> k0) by (intros Z; apply k_sub_0 in Z; symmetry in Z; apply keqb_spec in Z; congruence).
      set (l := kdiv _ _). assert (Hl : y2 = y1 +! l *! (x2 -! x1)) by (unfold l; field; assumption).
      apply k_sub_0. apply (k_integral (x2 -! x1)); [|assumption].
      (* f(x1) = f(x2) = 0 *)
      set (f := fun x => x *! (x *! x) +! b -! (y1 +! l *! (x -! x1)) *! (y1 +! l *! (x -! x1))).
      assert (F1 : f x1 = k0) by (unfold f; transitivity (x1 *! (x1 *! x1) +! b -! y1 *! y1); [ring|rewrite HP; ring]).
      assert (F2 : f x2 = k0) by (unfold f; rewrite <- Hl, HQ; ring).
      transitivity (f x2 -! f x1); [unfold f; ring|rewrite F1, F2; ring].
  Qed.

  Lemma ec_sum_on l : forallb on_curve l = true -> on_curve (ec_sum l) = true.
  Proof.
    unfold ec_sum. assert (G : forall P, on_curve P = true -> forallb on_curve l = true -> on_curve (fold_left ec_add l P) = true).
    { induction l as [|Q l IH]; intros P HP H; [exact HP|]. cbn [forallb fold_left] in *. apply andb_true_iff in H.
      apply IH; [apply ec_add_on|]; tauto. }
    apply G. reflexivity.
  Qed.

  Lemma ec_neg_on P : on_curve P = true -> on_curve (ec_neg P) = true.
  Proof.
    destruct P as [[x y]|]; [|trivial]. cbn. rewrite !keqb_spec. intros H. rewrite <- H. ring.
  Qed.
  Lemma ec_add_comm P Q : on_curve P = true -> on_curve Q = true -> ec_add P Q = ec_add Q P.
  Proof.
    destruct P as [[x1 y1]|], Q as [[x2 y2]|]; try reflexivity. intros HP HQ. cbn [ec_add].
    destruct (keqb x1 x2) eqn:E.
    - apply keqb_spec in E. subst x2. assert (keqb x1 x1 = true) as -> by (apply keqb_spec; reflexivity).
      destruct (keqb y1 y2) eqn:E2.
      + apply keqb_spec in E2. subst. assert (keqb y2 y2 = true) as -> by (apply keqb_spec; reflexivity). reflexivity.
      + destruct (keqb y2 y1) eqn:E3; [|reflexivity]. apply keqb_spec in E3. subst.
        assert (keqb y1 y1 = true) by (apply keqb_spec; reflexivity). congruence.
    - assert (keqb x2 x1 = false) as ->.
      { destruct (keqb x2 x1) eqn:E2; [|reflexivity]. apply keqb_spec in E2. subst.
        assert (keqb x1 x1 = true) by (apply keqb_spec; reflexivity). congruence. }
      assert (Hd : x2 -! x1 <> k0) by (intros Z; apply k_sub_0 in Z; symmetry in Z; apply keqb_spec in Z; congruence).
      assert (Hd' : x1 -! x2 <> k0) by (intros Z; apply k_sub_0 in Z; apply keqb_spec in Z; congruence).
      unfold slope_point. f_equal. f_equal; field; auto.
  Qed.
  Lemma ec_add_neg P : on_curve P = true -> ec_add P (ec_neg P) = None.
  Proof.
    destruct P as [[x y]|]; [|reflexivity]. intros _. cbn [ec_neg ec_add].
    assert (keqb x x = true) as -> by (apply keqb_spec; reflexivity).
    destruct (keqb y (kopp y)) eqn:E; [|reflexivity]. apply keqb_spec in E.
    assert (y = k0).
    { apply (k_integral (k1 +! k1)); [|assumption]. transitivity (y +! y); [ring|]. rewrite E at 2. ring. }
    cbn [ec_double]. subst. assert (keqb k0 k0 = true) as -> by (apply keqb_spec; reflexivity). reflexivity.
  Qed.
End Affine.

(** ** F_p as a field on a type of canonical integers *)
Definition fq := { a : Z | in_fp a = true }.
Definition fqv (a : fq) : Z := proj1_sig a.
Definition fq_of (a : Z) : fq := exist _ (a mod p) (in_fp_mod a).
Lemma fq_ext (a b : fq) : fqv a = fqv b -> a = b.
Proof.
  destruct a as [a Ha], b as [b Hb]. cbn. intros ->. f_equal. apply UIP_dec, bool_dec.
Qed.
Lemma fqv_in (a : fq) : in_fp (fqv a) = true. Proof. exact (proj2_sig a). Qed.
Lemma fqv_range (a : fq) : 0 <= fqv a < p. Proof. apply in_fp_spec, (proj2_sig a). Qed.
Lemma fqv_mod (a : fq) : fqv a mod p = fqv a. Proof. apply Z.mod_small, fqv_range. Qed.
Lemma fqv_of a : fqv (fq_of a) = a mod p. Proof. reflexivity. Qed.

(** Extended Euclid; the result is only used when it is an inverse. *)
Fixpoint egcd (fuel : nat) (r0 r1 t0 t1 : Z) : Z :=
  match fuel with
  | O => t0
  | S f => if r1 =? 0 then t0 else let q := r0 / r1 in egcd f r1 (r0 - q * r1) t1 (t0 - q * t1)
  end.
Definition inv_mod (a : Z) : Z :=
  let t := egcd 1000 p (a mod p) 0 1 mod p in
  if (a * t) mod p =? 1 then t else powmod a (p - 2) p.
Lemma inv_mod_spec a : a mod p <> 0 -> (a * inv_mod a) mod p = 1.
Proof.
  intros H. unfold inv_mod. cbv zeta. generalize (egcd 1000 p (a mod p) 0 1 mod p). intros t. destruct (Z.eqb_spec ((a * t) mod p) 1) as [E|E]; [assumption|].
  rewrite powmod_spec by (reflexivity || (unfold p; lia)).
  rewrite Zmult_mod_idemp_r.
  replace (a * a ^ (p - 2)) with (a ^ (p - 1)).
  - apply fermat_little; [apply prime_p|]. intros D. apply H, Z.mod_divide; [discriminate|assumption].
  - replace (p - 1) with (1 + (p - 2)) by lia. rewrite Z.pow_add_r by (unfold p; lia). rewrite Z.pow_1_r. reflexivity.
Qed.

Definition q0 := fq_of 0.
Definition q1 := fq_of 1.
Definition qadd (a b : fq) := fq_of (fqv a + fqv b).
Definition qmul (a b : fq) := fq_of (fqv a * fqv b).
Definition qsub (a b : fq) := fq_of (fqv a - fqv b).
Definition qopp (a : fq) := fq_of (- fqv a).
Definition qinv (a : fq) := fq_of (inv_mod (fqv a)).
Definition qdiv (a b : fq) := qmul a (qinv b).
Definition qeqb (a b : fq) : bool := fqv a =? fqv b.
Lemma qeqb_spec a b : qeqb a b = true <-> a = b.
Proof. unfold qeqb. rewrite Z.eqb_eq. split; [apply fq_ext|intros ->; reflexivity]. Qed.

Ltac modring := rewrite ?fqv_of, ?Zplus_mod_idemp_l, ?Zplus_mod_idemp_r, ?Zmult_mod_idemp_l, ?Zmult_mod_idemp_r,
  ?Zminus_mod_idemp_l, ?Zminus_mod_idemp_r.
Lemma fq_field : field_theory q0 q1 qadd qmul qsub qopp qdiv qinv (@eq fq).
Proof.
  constructor; [constructor| | |].
  - intros x. apply fq_ext. unfold qadd, q0. modring. change (0 mod p) with 0. cbn [Z.add]. apply fqv_mod.
  - intros x y. apply fq_ext. unfold qadd. modring. f_equal. ring.
  - intros x y z. apply fq_ext. unfold qadd. modring. f_equal. ring.
  - intros x. apply fq_ext. unfold qmul, q1. modring. rewrite Z.mul_1_l. apply fqv_mod.
  - intros x y. apply fq_ext. unfold qmul. modring. f_equal. ring.
  - intros x y z. apply fq_ext. unfold qmul. modring. f_equal. ring.
  - intros x y z. apply fq_ext. unfold qmul, qadd. modring. f_equal. ring.
  - intros x y. apply fq_ext. unfold qsub, qadd, qopp. modring. f_equal. 
  - intros x. apply fq_ext. unfold qadd, qopp, q0. modring. f_equal. ring.
  - intros H. apply (f_equal fqv) in H. vm_compute in H. discriminate.
  - reflexivity.
  - intros x Hx. apply fq_ext. unfold qmul, qinv, q1. modring. rewrite Z.mul_comm.
    change (1 mod p) with 1. apply inv_mod_spec. intros E. apply Hx, fq_ext. rewrite <- (fqv_mod x). exact E.
Qed.

(** ** F_p2 *)
Definition fq2 := (fq * fq)%type.
Definition fq2v (a : fq2) : fp2 := (fqv (fst a), fqv (snd a)).
Definition q2_0 : fq2 := (q0, q0).
Definition q2_1 : fq2 := (q1, q0).
Definition q2_of (a : fp2) : fq2 := (fq_of (fst a), fq_of (snd a)).
Definition q2add (a b : fq2) : fq2 := (qadd (fst a) (fst b), qadd (snd a) (snd b)).
Definition q2sub (a b : fq2) : fq2 := (qsub (fst a) (fst b), qsub (snd a) (snd b)).
Definition q2opp (a : fq2) : fq2 := (qopp (fst a), qopp (snd a)).
Definition five : fq := fq_of 5.
Definition q2mul (a b : fq2) : fq2 :=
  (qsub (qmul (fst a) (fst b)) (qmul five (qmul (snd a) (snd b))),
   qadd (qmul (fst a) (snd b)) (qmul (snd a) (fst b))).
Definition q2norm (a : fq2) : fq := qadd (qmul (fst a) (fst a)) (qmul five (qmul (snd a) (snd a))).
Definition q2inv (a : fq2) : fq2 :=
  let n := qinv (q2norm a) in (qmul (fst a) n, qmul (qopp (snd a)) n).
Definition q2div (a b : fq2) : fq2 := q2mul a (q2inv b).
Definition q2eqb (a b : fq2) : bool := qeqb (fst a) (fst b) && qeqb (snd a) (snd b).
Lemma q2eqb_spec a b : q2eqb a b = true <-> a = b.
Proof.
  unfold q2eqb. rewrite andb_true_iff, !qeqb_spec. destruct a, b. cbn. split; [intros [-> ->]; reflexivity|injection 1; auto].
Qed.

Add Field FQ : fq_field.
Lemma q2norm_nz a : a <> q2_0 -> q2norm a <> q0.
Proof.
  intros Ha Hn. apply Ha. unfold q2norm, five, qadd, qmul in Hn. apply (f_equal fqv) in Hn. revert Hn. modring.
  intros Hn. destruct (norm_zero (fqv (fst a)) (fqv (snd a))) as [H0 H1].
  - apply eqp_mod. etransitivity; [|exact Hn]. generalize (fqv (snd a) * fqv (snd a)) as s. intros s.
    rewrite (Zplus_mod (fqv (fst a) * fqv (fst a)) (5 * s)), (Zmult_mod 5 s).
    rewrite <- Zplus_mod. reflexivity.
  - destruct a as [a0 a1]. cbn [fst snd] in *. unfold q2_0. 
    f_equal; apply fq_ext, eqp_eq; try apply fqv_in; [exact H0|exact H1].
Qed.
Lemma fq2_field : field_theory q2_0 q2_1 q2add q2mul q2sub q2opp q2div q2inv (@eq fq2).
Proof.
  constructor.
  - constructor; try (intros [x0 x1] [y0 y1] [z0 z1]); try (intros [x0 x1] [y0 y1]); try (intros [x0 x1]);
      unfold q2add, q2mul, q2sub, q2opp, q2_0, q2_1; cbn [fst snd]; f_equal; ring.
  - intros H. apply (f_equal fst) in H. exact (F_1_neq_0 fq_field H).
  - reflexivity.
  - intros [x0 x1] Hx. pose proof (q2norm_nz _ Hx) as Hn. unfold q2mul, q2inv, q2_1. cbn [fst snd]. unfold q2norm in *. cbn [fst snd] in *.
    f_equal; field; assumption.
Qed.
