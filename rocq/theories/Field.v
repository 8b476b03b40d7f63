(** The base field F_p and its quadratic extension F_p2 = F_p[u]/(u^2+5) (ark-bls12-377, a dependency)
    as canonical integers, with the facts needed about signs and square roots. *)
From Coq Require Import Znumtheory Zpow_facts.
From Verif Require Import Base Prime Constants.

Lemma p_pos : 0 < p. Proof. reflexivity. Qed.
Lemma p_gt_2 : 2 < p. Proof. reflexivity. Qed.

(** ** F_p *)
Definition in_fp (a : Z) : bool := (0 <=? a) && (a <? p).
Definition fadd (a b : Z) : Z := (a + b) mod p.
Definition fsub (a b : Z) : Z := (a - b) mod p.
Definition fmul (a b : Z) : Z := (a * b) mod p.
Definition fneg (a : Z) : Z := (- a) mod p.
(** [Fq::modulus_minus_one_div_two] *)
Definition half : Z := (p - 1) / 2.

Lemma half_val : p = 2 * half + 1. Proof. reflexivity. Qed.
Lemma half_pos : 0 < half. Proof. reflexivity. Qed.

Lemma in_fp_spec a : in_fp a = true <-> 0 <= a < p.
Proof. unfold in_fp. rewrite andb_true_iff, Z.leb_le, Z.ltb_lt. reflexivity. Qed.
Lemma in_fp_mod a : in_fp (a mod p) = true.
Proof. apply in_fp_spec, Z.mod_pos_bound, p_pos. Qed.
Lemma fp_small a : in_fp a = true -> a mod p = a.
Proof. intros H. apply Z.mod_small, in_fp_spec, H. Qed.

Lemma fp_integral a b : (a * b) mod p = 0 -> a mod p = 0 \/ b mod p = 0.
Proof.
  intros H. apply Z.mod_divide in H; [|discriminate].
  apply prime_mult in H; [|apply prime_p]. destruct H as [H|H]; [left|right]; apply Z.mod_divide; try discriminate; assumption.
Qed.
Lemma fneg_val a : 0 < a < p -> fneg a = p - a.
Proof. intros H. unfold fneg. symmetry. apply Z.mod_unique with (-1); lia. Qed.
Lemma fneg_0 : fneg 0 = 0. Proof. reflexivity. Qed.
Lemma in_fp_neg a : in_fp (fneg a) = true. Proof. apply in_fp_mod. Qed.

(** Exactly one of a non-zero element and its negation exceeds [half]. *)
Lemma sign_neg a : 0 < a < p -> (half <? fneg a) = negb (half <? a).
Proof.
  intros H. rewrite fneg_val by assumption. pose proof half_val.
  destruct (Z.ltb_spec half a), (Z.ltb_spec half (p - a)); cbn; try reflexivity; lia.
Qed.

(** ** Congruence as a proposition, to keep [mod] out of the algebra *)
Definition eqp (a b : Z) : Prop := (p | a - b).
Lemma eqp_mod a b : eqp a b <-> a mod p = b mod p.
Proof.
  unfold eqp. split.
  - intros [k H]. replace a with (b + k * p) by lia. apply Z_mod_plus_full.
  - intros H. apply Z.mod_divide; [discriminate|]. rewrite Zminus_mod, H, Z.sub_diag. reflexivity.
Qed.
Lemma eqp_eq a b : in_fp a = true -> in_fp b = true -> eqp a b -> a = b.
Proof. intros Ha Hb H. apply eqp_mod in H. rewrite !fp_small in H by assumption. exact H. Qed.

(** ** -5 is not a square (Euler's criterion, one modular exponentiation) *)
Lemma half_sixth : half = sixth * 3. Proof. vm_compute. reflexivity. Qed.
Lemma cert_base_half : (cert_base ^ half) mod p = p - 1.
Proof. rewrite half_sixth, sixth_root by lia. vm_compute. reflexivity. Qed.
Lemma euler_nonresidue a : (a ^ half) mod p = p - 1 -> forall y, ~ eqp (y * y) a.
Proof.
  intros He y Hy. assert (Hnd : ~ (p | y)).
  { intros [k Hk]. apply eqp_mod in Hy.
    assert (Ha : a mod p = 0) by (rewrite <- Hy, Hk; replace (k * p * (k * p)) with (k * p * k * p) by ring; apply Z_mod_mult).
    apply Z.mod_divide in Ha; [|discriminate].
    assert ((a ^ half) mod p = 0).
    { apply Z.mod_divide; [discriminate|]. replace half with (1 + (half - 1)) by lia.
      rewrite Z.pow_add_r by (pose proof half_pos; lia). rewrite Z.pow_1_r. apply Z.divide_mul_l. exact Ha. }
    pose proof p_gt_2. lia. }
  pose proof (fermat_little p y prime_p Hnd) as F.
  replace (p - 1) with (2 * half) in F by (pose proof half_val; lia).
  rewrite Z.pow_mul_r in F by (pose proof half_pos; lia). change (y ^ 2) with (y ^ (1 + 1)) in F.
  rewrite Z.pow_add_r, Z.pow_1_r in F by lia.
  apply eqp_mod in Hy. rewrite Zpower_mod in F by apply p_pos. rewrite Hy in F.
  rewrite <- Zpower_mod in F by apply p_pos. rewrite He in F. pose proof p_gt_2. lia.
Qed.
Lemma minus5_nonresidue y : ~ eqp (y * y) (-5).
Proof.
  intros [k H]. apply (euler_nonresidue cert_base cert_base_half (y * y * y * 36)). unfold eqp, cert_base.
  exists (k * 1296 * ((y * y) * (y * y) - 5 * (y * y) + 25)).
  transitivity (1296 * ((y * y - -5) * ((y * y) * (y * y) - 5 * (y * y) + 25))); [ring|rewrite H; ring].
Qed.

(** ** F_p2 *)
Definition fp2 := (Z * Z)%type.
Definition in_fp2 (a : fp2) : bool := in_fp (fst a) && in_fp (snd a).
Definition f2add (a b : fp2) : fp2 := (fadd (fst a) (fst b), fadd (snd a) (snd b)).
Definition f2neg (a : fp2) : fp2 := (fneg (fst a), fneg (snd a)).
Definition f2mul (a b : fp2) : fp2 :=
  ((fst a * fst b - 5 * (snd a * snd b)) mod p, (fst a * snd b + snd a * fst b) mod p).
Definition f2sq (a : fp2) : fp2 := f2mul a a.

Lemma norm_zero a b : eqp (a * a + 5 * (b * b)) 0 -> eqp a 0 /\ eqp b 0.
Proof.
  intros H. destruct (Zdivide_dec p b) as [Hb|Hb].
  - assert (Ha : eqp (a * a) 0).
    { unfold eqp in *. destruct H as [i Hi], Hb as [j Hj]. exists (i - 5 * j * b). nia. }
    unfold eqp in *. rewrite Z.sub_0_r in Ha. rewrite !Z.sub_0_r. split; [|assumption].
    apply prime_mult in Ha; [|apply prime_p]. tauto.
  - exfalso. destruct (rel_prime_bezout p b (prime_rel_prime _ prime_p _ Hb)) as [u v Huv].
    apply (minus5_nonresidue (a * v)). unfold eqp in *. rewrite Z.sub_0_r in H.
    destruct H as [i Hi].
    (* (a v)^2 + 5 = v^2 (a^2 + 5 b^2) + 5 (1 - v^2 b^2) *)
    exists (v * v * i + 5 * u * (1 + v * b)).
    assert (E : 1 - v * b = u * p) by lia.
    transitivity (v * v * (a * a + 5 * (b * b)) + 5 * ((1 - v * b) * (1 + v * b))); [ring|].
    rewrite Hi, E. ring.
Qed.

Lemma f2_integral (a b : fp2) :
  eqp (fst a * fst b - 5 * (snd a * snd b)) 0 -> eqp (fst a * snd b + snd a * fst b) 0 ->
  (eqp (fst a) 0 /\ eqp (snd a) 0) \/ (eqp (fst b) 0 /\ eqp (snd b) 0).
Proof.
  destruct a as [a0 a1], b as [b0 b1]. cbn [fst snd]. intros H0 H1.
  (* N(a) N(b) = 0 *)
  assert (HN : (p | (a0 * a0 + 5 * (a1 * a1)) * (b0 * b0 + 5 * (b1 * b1)))).
  { unfold eqp in *. rewrite Z.sub_0_r in H0, H1. destruct H0 as [i Hi], H1 as [j Hj].
    exists (i * (a0 * b0 - 5 * (a1 * b1)) + 5 * j * (a0 * b1 + a1 * b0)).
    transitivity ((a0 * b0 - 5 * (a1 * b1)) * (a0 * b0 - 5 * (a1 * b1)) + 5 * ((a0 * b1 + a1 * b0) * (a0 * b1 + a1 * b0))); [ring|].
    rewrite Hi, Hj. ring. }
  apply prime_mult in HN; [|apply prime_p].
  destruct HN as [HN|HN]; [left|right]; apply norm_zero; unfold eqp; rewrite Z.sub_0_r; exact HN.
Qed.

Lemma in_fp2_spec a : in_fp2 a = true <-> 0 <= fst a < p /\ 0 <= snd a < p.
Proof. unfold in_fp2. rewrite andb_true_iff, !in_fp_spec. reflexivity. Qed.
Lemma eqp_sub a b : eqp (a - b) 0 <-> eqp a b.
Proof. unfold eqp. rewrite Z.sub_0_r. reflexivity. Qed.
Lemma eqp_opp a b : eqp (a + b) 0 -> eqp b (- a).
Proof. unfold eqp. intros [k H]. exists k. lia. Qed.

(** Two elements with equal squares agree up to sign. *)
Lemma f2_sqrt_unique a b : in_fp2 a = true -> in_fp2 b = true -> f2sq a = f2sq b -> a = b \/ a = f2neg b.
Proof.
  intros Ha Hb H. unfold f2sq, f2mul in H. destruct a as [a0 a1], b as [b0 b1]. cbn [fst snd] in *.
  pose proof (f_equal fst H) as H0. pose proof (f_equal snd H) as H1. cbn [fst snd] in H0, H1. apply eqp_mod in H0, H1.
  destruct (f2_integral (a0 - b0, a1 - b1) (a0 + b0, a1 + b1)) as [[E0 E1]|[E0 E1]]; cbn [fst snd] in *.
  - unfold eqp in *. destruct H0 as [i Hi]. exists i. rewrite <- Hi. ring.
  - unfold eqp in *. destruct H1 as [i Hi]. exists i. rewrite <- Hi. ring.
  - left. apply (proj1 (eqp_sub _ _)) in E0, E1. unfold in_fp2 in Ha, Hb; cbn [fst snd] in *.
    apply andb_true_iff in Ha, Hb. f_equal; apply eqp_eq; tauto.
  - right. unfold f2neg; cbn [fst snd]. unfold in_fp2 in Ha, Hb; cbn [fst snd] in *.
    apply andb_true_iff in Ha, Hb.
    assert (X : forall x y, in_fp x = true -> eqp (x + y) 0 -> x = fneg y).
    { intros x y Hx He. rewrite Z.add_comm in He. apply eqp_opp in He. apply eqp_mod in He. rewrite fp_small in He by assumption.
      exact He. }
    f_equal; apply X; tauto.
Qed.
