(** BLS12-377 constants (dependency ark-bls12-377; the same [p] is the scalar field of BW6-761,
    i.e. the field of the epoch circuit: crates/epoch-snark/src/api/mod.rs lines 11-17) and proofs
    that both moduli are prime. *)
From Coq Require Import ZArith Znumtheory Zpow_facts List Lia Bool.
From Verif Require Import Prime.
Import ListNotations.
Open Scope Z_scope.

(** The curve family parameter. *)
Definition bls_x : Z := 0x8508c00000000001.
(** Scalar field modulus (order of G1, G2, GT). *)
Definition r : Z := 0x12ab655e9a2ca55660b44d1e5c37b00159aa76fed00000010a11800000000001.
(** Base field modulus. *)
Definition p : Z :=
  0x01ae3a4617c510eac63b05c06ca1493b1a22d9f300f5138f1ef3622fba094800170b5d44300000008508c00000000001.

(** Consistency with the BLS12 family polynomials. *)
Lemma r_family : r = bls_x ^ 4 - bls_x ^ 2 + 1. Proof. reflexivity. Qed.
Lemma p_family : 3 * (p - bls_x) = (bls_x - 1) ^ 2 * r. Proof. reflexivity. Qed.

Definition small_prime_check (n : Z) : bool :=
  (1 <? n) && forallb (fun d => negb (n mod (Z.of_nat d) =? 0)) (seq 2 (Z.to_nat n - 2)).

Lemma small_prime_check_ok n : small_prime_check n = true -> prime n.
Proof.
  unfold small_prime_check. intros H. apply andb_true_iff in H. destruct H as [H1 H2].
  apply Z.ltb_lt in H1. rewrite forallb_forall in H2.
  destruct (prime_dec n) as [|Hn]; [assumption|exfalso].
  destruct (not_prime_divide n H1 Hn) as [d [Hd Hdn]].
  specialize (H2 (Z.to_nat d)). rewrite Z2Nat.id in H2 by lia.
  assert (Hin : In (Z.to_nat d) (seq 2 (Z.to_nat n - 2))) by (apply in_seq; lia).
  specialize (H2 Hin). apply Z.mod_divide in Hdn; [|lia]. rewrite Hdn in H2. discriminate.
Qed.

Ltac small_prime := apply small_prime_check_ok; vm_compute; reflexivity.
Ltac by_pock k c tac :=
  apply (pocklington_check k _ c); [vm_compute; reflexivity |
    let H := fresh in intros ? ? ? H; cbn [In] in H;
    repeat (destruct H as [H|H]; [injection H as <- <- <-; tac|]); contradiction].

Lemma prime_457 : prime 457. Proof. small_prime. Qed.
Lemma prime_53927 : prime 53927.
Proof. by_pock 19%nat [(457, 1, 2)] ltac:(exact prime_457). Qed.
Lemma prime_22433633 : prime 22433633.
Proof. by_pock 28%nat [(53927, 1, 2)] ltac:(exact prime_53927). Qed.
Lemma prime_494527005853 : prime 494527005853.
Proof. by_pock 42%nat [(22433633, 1, 2)] ltac:(exact prime_22433633). Qed.
Lemma prime_76872275827 : prime 76872275827.
Proof. by_pock 40%nat [(3, 1, 2); (17, 2, 2); (19, 1, 2); (23, 1, 2)] ltac:(small_prime). Qed.
Lemma prime_1844934619849 : prime 1844934619849.
Proof. by_pock 44%nat [(76872275827, 1, 2)] ltac:(exact prime_76872275827). Qed.
Lemma prime_111286271775829695101 : prime 111286271775829695101.
Proof. by_pock 70%nat [(1844934619849, 1, 2)] ltac:(exact prime_1844934619849). Qed.
Lemma prime_222572543551659390203 : prime 222572543551659390203.
Proof. by_pock 71%nat [(111286271775829695101, 1, 2)] ltac:(exact prime_111286271775829695101). Qed.
Lemma prime_97931919162730131689321 : prime 97931919162730131689321.
Proof. by_pock 80%nat [(222572543551659390203, 1, 2)] ltac:(exact prime_222572543551659390203). Qed.
Lemma prime_3721412928183745004194199 : prime 3721412928183745004194199.
Proof. by_pock 85%nat [(97931919162730131689321, 1, 2)] ltac:(exact prime_97931919162730131689321). Qed.
Lemma prime_M : prime 73387170334035996766247648424745786170238574695861388454532790956181.
Proof.
  by_pock 229%nat [(494527005853, 1, 2); (3721412928183745004194199, 1, 2)]
    ltac:(first [exact prime_494527005853 | exact prime_3721412928183745004194199]).
Qed.
Lemma prime_bls_x : prime bls_x.
Proof. by_pock 67%nat [(2, 46, 11)] ltac:(exact prime_2). Qed.

(** One power computation modulo p serves three facts: that p is prime, that -5 is no square and that -6
    is no cube modulo p.  The base is (-5)^3 (-6)^4; its power (p-1)/6 is a primitive sixth root of one. *)
Definition cert_base : Z := -162000.
Definition cert_M : Z := 73387170334035996766247648424745786170238574695861388454532790956181.
Definition cert_e : Z := (p - 1) / (6 * cert_M).
Definition sixth : Z := cert_e * cert_M.
Definition cert_w : Z :=
  0x136ea24f63440fae486c6c40eb62ef9df903a4ff2be8f9e4648e193cb6f7951b01f4ec819076461b8da4f1b42b486c1.
Definition cert_u : Z :=
  0x1ae3a4617c510eabc8756ba8f8c524eb8882a75cc9bc8e359064ee822fb5bffd1e94577a00000000000000000000000.
Lemma sixth_val : p - 1 = 6 * sixth. Proof. vm_compute. reflexivity. Qed.
Lemma sixth_pos : 0 < sixth. Proof. reflexivity. Qed.

Definition powers_check (k : nat) (n a w u : Z) (e f : positive) : bool :=
  let m := Z.to_N n in let R := 2 ^ Z.of_nat k in
  Z.odd n && (1 <? n) &&
  match mexp m k (Z.to_N ((R * a) mod n)) e with
  | Some g => ((Z.of_N g - R * w) mod n =? 0) &&
              match mexp m k g f with
              | Some h => (Z.of_N h - R * u) mod n =? 0
              | None => false
              end
  | None => false
  end.
Lemma powers_check_sound k n a w u e f : powers_check k n a w u e f = true ->
  (n | a ^ Zpos e - w) /\ (n | a ^ (Zpos e * Zpos f) - u).
Proof.
  unfold powers_check. intros H. apply andb_true_iff in H. destruct H as [H0 H]. apply andb_true_iff in H0. destruct H0 as [Hodd Hn].
  apply Z.ltb_lt in Hn. set (R := 2 ^ Z.of_nat k) in *. set (m := Z.to_N n) in *.
  assert (Em : Z.of_N m = n) by (unfold m; apply Z2N.id; lia).
  assert (Hmo : N.odd m = true) by (rewrite N_odd_Z, Em; assumption).
  destruct (mexp m k _ e) as [g|] eqn:Eg; [|discriminate]. apply andb_true_iff in H. destruct H as [Hg H].
  destruct (mexp m k g f) as [h|] eqn:Eh; [|discriminate]. apply Z.eqb_eq in Hg. apply Z.eqb_eq in H.
  assert (Hb : rep n (Z.of_nat k) (Z.of_N (Z.to_N ((R * a) mod n))) a).
  { unfold rep. rewrite Z2N.id by (apply Z.mod_pos_bound; lia). fold R.
    rewrite Z.mod_eq by lia. exists (- ((R * a) / n)). ring. }
  set (b0 := Z.to_N ((R * a) mod n)) in *. rewrite <- Em in Hb. pose proof (mexp_rep _ _ _ _ Hmo Hb _ _ Eg) as Rg.
  pose proof (mexp_rep _ _ _ _ Hmo Rg _ _ Eh) as Rh. rewrite Em in *.
  rewrite <- Z.pow_mul_r in Rh by lia.
  assert (Hrp : rel_prime n R) by (apply rel_prime_pow2; [assumption|lia]).
  apply Z.mod_divide in Hg; [|lia]. apply Z.mod_divide in H; [|lia]. unfold rep in Rg, Rh. fold R in Rg, Rh.
  split; apply Gauss with R; try assumption.
  - destruct Hg as [i Hi], Rg as [j Hj]. exists (i - j). rewrite Z.mul_sub_distr_l. lia.
  - destruct H as [i Hi], Rh as [j Hj]. exists (i - j). rewrite Z.mul_sub_distr_l. lia.
Qed.
Lemma cert_powers : (p | cert_base ^ cert_e - cert_w) /\ (p | cert_base ^ sixth - cert_u).
Proof. exact (powers_check_sound 380 p cert_base cert_w cert_u (Z.to_pos cert_e) (Z.to_pos cert_M) ltac:(vm_compute; reflexivity)). Qed.
Lemma pow_congr n a b k : 0 < n -> 0 <= k -> (n | a - b) -> (a ^ k) mod n = (b ^ k) mod n.
Proof.
  intros Hn Hk [j Hj]. replace a with (b + j * n) by lia. rewrite Zpower_mod by lia. rewrite Z_mod_plus_full, <- Zpower_mod by lia. reflexivity.
Qed.
(** powers of the sixth root *)
Lemma sixth_root k : 0 <= k -> (cert_base ^ (sixth * k)) mod p = (cert_u ^ k) mod p.
Proof.
  intros Hk. rewrite Z.pow_mul_r by (try assumption; apply Z.lt_le_incl, sixth_pos).
  apply pow_congr; [reflexivity|assumption|exact (proj2 cert_powers)].
Qed.
Lemma prime_p : prime p.
Proof.
  apply (pocklington p [(cert_M, 1, cert_base)]).
  - reflexivity.
  - intros e [<-|[]]. unfold pock_entry. split; [lia|]. split; [exists (6 * cert_e); vm_compute; reflexivity|]. split.
    + rewrite sixth_val, (Z.mul_comm 6). rewrite sixth_root by lia. vm_compute. reflexivity.
    + replace ((p - 1) / cert_M) with (cert_e * 6) by (vm_compute; reflexivity).
      rewrite Z.pow_mul_r by (vm_compute; intros K; discriminate K).
      rewrite (pow_congr p (cert_base ^ cert_e) cert_w 6 eq_refl ltac:(lia) (proj1 cert_powers)). vm_compute. reflexivity.
  - vm_compute. reflexivity.
  - reflexivity.
  - intros q k a [H|[]]. injection H as <- <- <-. exact prime_M.
Qed.
Lemma prime_r : prime r.
Proof. by_pock 256%nat [(bls_x, 2, 2)] ltac:(exact prime_bls_x). Qed.
