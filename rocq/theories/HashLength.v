(** [hash_length] of crates/bls-crypto/src/hash_to_curve/mod.rs lines 70-74 with its f64 arithmetic:
    IEEE 754 binary64 with round-to-nearest-even, as Flocq's rounding operator on the reals. *)
From Coq Require Import Reals Psatz.
From Flocq Require Import Core.
From Verif Require Import Base HashCurveModel.
Open Scope Z_scope.

Definition f64 (x : R) : R := round radix2 (FLT_exp (-1074) 53) ZnearestE x.
(** [(n * 8) as f64 / 256.0] ; [.ceil() * 256.0] ; [as usize / 8].  The product [n * 8] does not
    overflow for n < 2^61, and no intermediate value leaves the binary64 range. *)
Definition hash_length_f64 (n : Z) : Z :=
  let bits := f64 (f64 (IZR (n * 8)) / IZR 256)%R in
  let rounded_bits := f64 (f64 (IZR (Zceil bits)) * IZR 256)%R in
  Ztrunc rounded_bits / 8.

(** Integers of at most 53 significant bits, scaled by a power of two, are exact. *)
Lemma f64_exact m e : Z.abs m < 2 ^ 53 -> -1074 <= e -> f64 (IZR m * bpow radix2 e)%R = (IZR m * bpow radix2 e)%R.
Proof.
  intros Hm He. unfold f64. apply round_generic; [apply valid_rnd_N|].
  apply generic_format_FLT. exists (Float radix2 m e); [reflexivity|exact Hm|exact He].
Qed.

Lemma ceil_quot a b : 0 < b -> Zceil (IZR a / IZR b) = (a + b - 1) / b.
Proof.
  intros Hb. apply Zceil_imp. pose proof (Z.div_mod (a + b - 1) b ltac:(lia)) as D.
  pose proof (Z.mod_pos_bound (a + b - 1) b Hb) as M. set (q := (a + b - 1) / b) in *.
  assert (HB : (0 < IZR b)%R) by (apply IZR_lt; exact Hb).
  assert (E : (IZR a = IZR a / IZR b * IZR b)%R) by (field; lra).
  split.
  - apply (Rmult_lt_reg_r (IZR b)); [exact HB|]. rewrite <- E, <- mult_IZR. apply IZR_lt. lia.
  - apply (Rmult_le_reg_r (IZR b)); [exact HB|]. rewrite <- E, <- mult_IZR. apply IZR_le. lia.
Qed.
Lemma bpow_IZR e : 0 <= e -> bpow radix2 e = IZR (2 ^ e).
Proof. intros H. rewrite <- (IZR_Zpower radix2) by exact H. reflexivity. Qed.

Lemma hash_length_exact n : 0 <= n < 2 ^ 53 -> hash_length_f64 n = hash_length n.
Proof.
  intros Hn. unfold hash_length_f64, hash_length. cbv zeta.
  assert (E1 : f64 (IZR (n * 8)) = IZR (n * 8)).
  { replace (IZR (n * 8)) with (IZR n * bpow radix2 3)%R by (rewrite mult_IZR, bpow_IZR by lia; reflexivity).
    apply f64_exact; lia. }
  rewrite E1.
  assert (E2 : f64 (IZR (n * 8) / IZR 256)%R = (IZR (n * 8) / IZR 256)%R).
  { replace (IZR (n * 8) / IZR 256)%R with (IZR n * bpow radix2 (-5))%R; [apply f64_exact; lia|].
    rewrite mult_IZR. change (-5) with (- (5)). rewrite bpow_opp, bpow_IZR by lia. change (2 ^ 5) with 32. field. }
  rewrite E2, ceil_quot by lia. set (c := (n * 8 + 256 - 1) / 256).
  assert (Hc : 0 <= c < 2 ^ 53).
  { unfold c. split; [apply Z.div_pos; lia|]. apply Z.div_lt_upper_bound; lia. }
  assert (E3 : f64 (IZR c) = IZR c).
  { replace (IZR c) with (IZR c * bpow radix2 0)%R by (change (bpow radix2 0) with 1%R; ring). apply f64_exact; lia. }
  rewrite E3.
  assert (E4 : f64 (IZR c * IZR 256)%R = IZR (c * 256)).
  { rewrite mult_IZR. replace (IZR 256) with (bpow radix2 8) by (rewrite bpow_IZR by lia; reflexivity). apply f64_exact; lia. }
  rewrite E4, Ztrunc_IZR. unfold c. do 3 f_equal. lia.
Qed.

(** The least multiple of 32 that is at least n. *)
Lemma hash_length_least n : 0 <= n -> n <= hash_length n /\ hash_length n mod 32 = 0 /\
  forall m, n <= m -> m mod 32 = 0 -> hash_length n <= m.
Proof.
  intros Hn. unfold hash_length.
  assert (E : (n * 8 + 255) / 256 * 256 / 8 = 32 * ((n + 31) / 32)).
  { replace (n * 8 + 255) with (7 + (n + 31) * 8) by lia.
    replace 256 with (8 * 32) at 1 by reflexivity. rewrite <- Z.div_div, Z.div_add by lia.
    change (7 / 8) with 0. rewrite Z.add_0_l. replace ((n + 31) / 32 * 256) with (32 * ((n + 31) / 32) * 8) by lia.
    apply Z.div_mul. lia. }
  rewrite E. split; [|split].
  - pose proof (Z.div_mod (n + 31) 32 ltac:(lia)). pose proof (Z.mod_pos_bound (n + 31) 32 ltac:(lia)). lia.
  - rewrite Z.mul_comm. apply Z.mod_mul. lia.
  - intros m Hm Hd. apply Z.mod_divide in Hd; [|lia]. destruct Hd as [k ->].
    assert ((n + 31) / 32 < k + 1) by (apply Z.div_lt_upper_bound; lia). lia.
Qed.

(** Above 2^53 the conversion to f64 can lose the lowest bits. *)
Lemma f64_tie : f64 (IZR ((2 ^ 53 + 1) * 8)) = IZR (2 ^ 56).
Proof.
  set (x := IZR ((2 ^ 53 + 1) * 8)).
  assert (M : mag_val radix2 x (mag radix2 x) = 57).
  { apply mag_unique. unfold x. rewrite <- abs_IZR. rewrite !bpow_IZR by lia. split; [apply IZR_le|apply IZR_lt]; vm_compute; congruence || reflexivity. }
  unfold f64, round, F2R, scaled_mantissa, cexp. cbn [Fnum Fexp]. rewrite M. change (FLT_exp (-1074) 53 57) with 4.
  assert (E : (x * bpow radix2 (- (4)) = IZR (2 ^ 52) + / 2)%R).
  { unfold x. rewrite bpow_opp, bpow_IZR by lia. change (2 ^ 4) with 16.
    replace ((2 ^ 53 + 1) * 8) with (2 ^ 52 * 16 + 8) by reflexivity. rewrite plus_IZR, mult_IZR. field. }
  rewrite E.
  assert (F : Zfloor (IZR (2 ^ 52) + / 2) = 2 ^ 52).
  { apply Zfloor_imp. rewrite plus_IZR. split; lra. }
  assert (N : ZnearestE (IZR (2 ^ 52) + / 2) = 2 ^ 52).
  { unfold ZnearestE, Znearest. rewrite F. rewrite Rcompare_Eq by ring. reflexivity. }
  rewrite N. rewrite bpow_IZR, <- mult_IZR by lia. reflexivity.
Qed.
Lemma hash_length_short : hash_length_f64 (2 ^ 53 + 1) = 2 ^ 53.
Proof.
  unfold hash_length_f64. cbv zeta. rewrite f64_tie.
  assert (E2 : f64 (IZR (2 ^ 56) / IZR 256)%R = IZR (2 ^ 48)).
  { replace (IZR (2 ^ 56) / IZR 256)%R with (IZR 1 * bpow radix2 48)%R.
    - rewrite f64_exact by lia. rewrite bpow_IZR by lia. ring.
    - rewrite bpow_IZR by lia. replace (2 ^ 56) with (2 ^ 48 * 256) by reflexivity. rewrite mult_IZR. field. }
  rewrite E2, Zceil_IZR.
  assert (E3 : f64 (IZR (2 ^ 48)) = IZR (2 ^ 48)).
  { replace (IZR (2 ^ 48)) with (IZR 1 * bpow radix2 48)%R by (rewrite bpow_IZR by lia; ring). apply f64_exact; lia. }
  rewrite E3.
  assert (E4 : f64 (IZR (2 ^ 48) * IZR 256)%R = IZR (2 ^ 56)).
  { replace (IZR (2 ^ 48) * IZR 256)%R with (IZR 1 * bpow radix2 56)%R.
    - rewrite f64_exact by lia. rewrite bpow_IZR by lia. ring.
    - rewrite bpow_IZR, <- !mult_IZR by lia. reflexivity. }
  rewrite E4, Ztrunc_IZR. reflexivity.
Qed.
