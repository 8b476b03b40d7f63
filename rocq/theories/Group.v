(** Abelian groups with decidable equality, integer multiples, and the pairing structure.
    These records state what the model assumes of arkworks' G1, G2, GT (ark-ec, ark-bls12-377):
    abelian groups of prime order [r] with a bilinear non-degenerate map.  Every theorem that uses
    them is quantified over all such structures; [Instances.v] builds one. *)
From Coq Require Import ZArith Znumtheory List Bool Lia Permutation.
From Verif Require Import Prime Constants.
Import ListNotations.
Open Scope Z_scope.

Record grp := Grp {
  car :> Type;
  gz : car;
  ga : car -> car -> car;
  gn : car -> car;
  geqb : car -> car -> bool;
  ga_assoc : forall a b c, ga a (ga b c) = ga (ga a b) c;
  ga_comm : forall a b, ga a b = ga b a;
  ga_0_l : forall a, ga gz a = a;
  gn_l : forall a, ga (gn a) a = gz;
  geqb_spec : forall a b, geqb a b = true <-> a = b
}.
Arguments gz {g}.
Arguments ga {g} _ _.
Arguments gn {g} _.
Arguments geqb {g} _ _.

Declare Scope grp_scope.
Delimit Scope grp_scope with G.
Bind Scope grp_scope with car.
Infix "+" := ga : grp_scope.
Notation "- x" := (gn x) : grp_scope.
Notation "x - y" := (ga x (gn y)) : grp_scope.

(** Integer multiple by double-and-add ([mul] of arkworks). *)
Definition pmul {G : grp} (n : positive) (P : G) : G := Pos.iter_op ga n P.
Definition smul {G : grp} (k : Z) (P : G) : G :=
  match k with Z0 => gz | Zpos n => pmul n P | Zneg n => gn (pmul n P) end.

(** [Iterator::sum] of group elements. *)
Definition gsum {G : grp} (l : list G) : G := fold_left ga l gz.

Section GroupLemmas.
Context {G : grp}.
Implicit Types P Q S : G.
Implicit Types l : list G.
Local Open Scope grp_scope.

Lemma ga_0_r P : P + gz = P. Proof. rewrite ga_comm; apply ga_0_l. Qed.
Lemma gn_r P : P + - P = gz. Proof. rewrite ga_comm; apply gn_l. Qed.
Lemma ga_cancel_l P Q S : P + Q = P + S -> Q = S.
Proof.
  intros H. rewrite <- (ga_0_l _ Q), <- (ga_0_l _ S), <- (gn_l _ P), <- !ga_assoc, H. reflexivity.
Qed.
Lemma ga_cancel_r P Q S : Q + P = S + P -> Q = S.
Proof. rewrite !(ga_comm _ _ P). apply ga_cancel_l. Qed.
Lemma gn_unique P Q : P + Q = gz -> Q = - P.
Proof. intros H. apply (ga_cancel_l P). rewrite H, gn_r. reflexivity. Qed.
Lemma gn_0 : - (gz : G) = gz. Proof. symmetry; apply gn_unique, ga_0_l. Qed.
Lemma gn_gn P : - - P = P. Proof. symmetry; apply gn_unique, gn_l. Qed.
Lemma ga_4 P Q S R : (P + Q) + (S + R) = (P + S) + (Q + R).
Proof. rewrite <- !ga_assoc. f_equal. rewrite !ga_assoc, (ga_comm _ Q S). reflexivity. Qed.
Lemma gn_add P Q : - (P + Q) = - P + - Q.
Proof. symmetry; apply gn_unique. rewrite ga_4, !gn_r. apply ga_0_l. Qed.
Lemma gsub_0 P Q : P - Q = gz <-> P = Q.
Proof.
  split; intros H; [|subst; apply gn_r].
  apply (ga_cancel_r (- Q)). rewrite H, gn_r. reflexivity.
Qed.
Lemma geqb_refl P : geqb P P = true. Proof. apply geqb_spec; reflexivity. Qed.
Lemma geqb_neq P Q : geqb P Q = false <-> P <> Q.
Proof.
  rewrite <- not_true_iff_false. split; intros H E; apply H; apply geqb_spec; assumption.
Qed.

(** *** integer multiples *)
Lemma pmul_1 P : pmul 1 P = P. Proof. reflexivity. Qed.
Lemma pmul_succ n P : pmul (Pos.succ n) P = P + pmul n P.
Proof. unfold pmul. apply Pos.iter_op_succ. apply ga_assoc. Qed.
Lemma pmul_add n m P : pmul (n + m) P = pmul n P + pmul m P.
Proof.
  induction n as [|n IH] using Pos.peano_ind.
  - rewrite Pos.add_1_l, pmul_succ. reflexivity.
  - rewrite Pos.add_succ_l, !pmul_succ, IH. apply ga_assoc.
Qed.
Lemma smul_0 P : smul 0 P = gz. Proof. reflexivity. Qed.
Lemma smul_1 P : smul 1 P = P. Proof. reflexivity. Qed.
Lemma smul_opp k P : smul (Z.opp k) P = - smul k P.
Proof. destruct k; cbn [smul Z.opp]; [symmetry; apply gn_0|reflexivity|symmetry; apply gn_gn]. Qed.
Lemma pmul_pos_sub n m P : smul (Z.pos_sub n m) P = pmul n P + - pmul m P.
Proof.
  rewrite Z.pos_sub_spec. destruct (Pos.compare_spec n m) as [->|H|H]; cbn [smul].
  - symmetry; apply gn_r.
  - rewrite <- (Pplus_minus m n) at 2 by (apply Pos.gt_lt_iff; exact H).
    rewrite pmul_add, gn_add, ga_assoc, gn_r, ga_0_l. reflexivity.
  - rewrite <- (Pplus_minus n m) at 2 by (apply Pos.gt_lt_iff; exact H).
    rewrite pmul_add, (ga_comm _ (pmul m P)), <- ga_assoc, gn_r, ga_0_r. reflexivity.
Qed.
Lemma smul_add (k l : Z) P : smul (k + l) P = smul k P + smul l P.
Proof.
  destruct k as [|k|k], l as [|l|l]; cbn [Z.add smul]; rewrite ?ga_0_l, ?ga_0_r; try reflexivity.
  - apply pmul_add.
  - apply pmul_pos_sub.
  - rewrite pmul_pos_sub, ga_comm. reflexivity.
  - rewrite pmul_add. apply gn_add.
Qed.
Lemma smul_sub (k l : Z) P : smul (k - l) P = smul k P - smul l P.
Proof. unfold Z.sub. rewrite smul_add, smul_opp. reflexivity. Qed.
Lemma smul_succ k P : smul (Z.succ k) P = smul k P + P.
Proof. unfold Z.succ. rewrite smul_add, smul_1. reflexivity. Qed.
Lemma smul_gz k : smul k (gz : G) = gz.
Proof.
  assert (H : forall n, pmul n (gz : G) = gz).
  { induction n as [|n IH] using Pos.peano_ind; [reflexivity|]. rewrite pmul_succ, IH. apply ga_0_l. }
  destruct k; cbn [smul]; [reflexivity|apply H|rewrite H; apply gn_0].
Qed.
Lemma smul_ga k P Q : smul k (P + Q) = smul k P + smul k Q.
Proof.
  assert (H : forall n, pmul n (P + Q) = pmul n P + pmul n Q).
  { induction n as [|n IH] using Pos.peano_ind; [reflexivity|]. rewrite !pmul_succ, IH. apply ga_4. }
  destruct k; cbn [smul]; [symmetry; apply ga_0_l|apply H|rewrite H; apply gn_add].
Qed.
Lemma smul_gn k P : smul k (- P) = - smul k P.
Proof. apply gn_unique. rewrite <- smul_ga, gn_r. apply smul_gz. Qed.
Lemma smul_mul (k l : Z) P : smul (k * l) P = smul k (smul l P).
Proof.
  assert (H : forall n, smul (Zpos n * l) P = smul (Zpos n) (smul l P)).
  { induction n as [|n IH] using Pos.peano_ind.
    - rewrite Z.mul_1_l. reflexivity.
    - rewrite Pos2Z.inj_succ, Z.mul_succ_l, smul_add, IH, smul_succ. reflexivity. }
  destruct k as [|k|k]; [reflexivity|apply H|].
  change (Z.neg k) with (Z.opp (Z.pos k)). rewrite Z.mul_opp_l, !smul_opp, H. reflexivity.
Qed.

(** *** sums *)
Lemma fold_left_ga l P : fold_left ga l P = P + gsum l.
Proof.
  unfold gsum. revert P. induction l as [|x l IH]; intros P; cbn [fold_left].
  - symmetry; apply ga_0_r.
  - rewrite IH, (IH (gz + x)), ga_0_l. symmetry; apply ga_assoc.
Qed.
Lemma gsum_nil : gsum ([] : list G) = (gz : G). Proof. reflexivity. Qed.
Lemma gsum_cons x l : gsum (x :: l) = x + gsum l.
Proof. unfold gsum at 1; cbn [fold_left]. rewrite fold_left_ga, ga_0_l. reflexivity. Qed.
Lemma gsum_app l l' : gsum (l ++ l') = gsum l + gsum l'.
Proof.
  induction l as [|x l IH]; [symmetry; apply ga_0_l|].
  cbn [app]. rewrite !gsum_cons, IH. apply ga_assoc.
Qed.
Lemma gsum_perm l l' : Permutation l l' -> gsum l = gsum l'.
Proof.
  induction 1; rewrite ?gsum_cons; [reflexivity|congruence| |congruence].
  rewrite !ga_assoc, (ga_comm _ x y). reflexivity.
Qed.
Lemma gsum_map_smul k l : gsum (map (smul k) l) = smul k (gsum l).
Proof.
  induction l as [|x l IH]; cbn [map]; [rewrite !gsum_nil; symmetry; apply smul_gz|].
  rewrite !gsum_cons, IH. symmetry; apply smul_ga.
Qed.
Lemma gsum_concat (ll : list (list G)) : gsum (map gsum ll) = gsum (concat ll).
Proof.
  induction ll as [|l ll IH]; [reflexivity|]. cbn [map concat]. rewrite gsum_cons, gsum_app, IH. reflexivity.
Qed.

(** *** prime order *)
Lemma smul_mod_ord P k : smul r P = gz -> smul (k mod r) P = smul k P.
Proof.
  intros H. rewrite (Z.div_mod k r) at 2 by (unfold r; lia).
  rewrite smul_add, Z.mul_comm, smul_mul, H, smul_gz, ga_0_l. reflexivity.
Qed.
Lemma smul_eq_0_divide P k : smul r P = gz -> P <> gz -> smul k P = gz -> (r | k).
Proof.
  intros Hr Hne Hk. destruct (Zdivide_dec r k) as [|Hnd]; [assumption|exfalso; apply Hne].
  assert (Hrp : rel_prime r k) by (apply prime_rel_prime; [apply prime_r|assumption]).
  destruct (rel_prime_bezout _ _ Hrp) as [u v Huv].
  rewrite <- (smul_1 P), <- Huv, smul_add, !smul_mul, Hr, Hk, !smul_gz. apply ga_0_l.
Qed.
Lemma smul_inj_scalar P (k l : Z) : smul r P = gz -> P <> gz -> smul k P = smul l P -> k mod r = l mod r.
Proof.
  intros Hr Hne H. assert (Hd : (r | k - l)).
  { apply (smul_eq_0_divide P); [assumption|assumption|]. rewrite smul_sub, H. apply gn_r. }
  destruct Hd as [j Hj]. replace k with (l + j * r)%Z by lia. apply Z_mod_plus_full.
Qed.
End GroupLemmas.

(** The pairing: [r] is the concrete scalar modulus of BLS12-377. *)
Record pairing := Pairing {
  G1 : grp; G2 : grp; GT : grp;
  gen1 : G1; gen2 : G2;
  e : G1 -> G2 -> GT;
  e_add_l : forall P Q S, e (P + Q)%G S = (e P S + e Q S)%G;
  e_add_r : forall P Q S, e P (Q + S)%G = (e P Q + e P S)%G;
  G1_cyclic : forall P : G1, exists k, P = smul k gen1;
  G2_cyclic : forall P : G2, exists k, P = smul k gen2;
  G1_ord : smul r gen1 = gz;
  G2_ord : smul r gen2 = gz;
  e_nondeg : e gen1 gen2 <> gz
}.
Arguments gen1 {p}. Arguments gen2 {p}. Arguments e {p} _ _.

Section PairingLemmas.
Context {pr : pairing}.
Implicit Types P Q : G1 pr.
Implicit Types S T : G2 pr.
Local Open Scope grp_scope.

Lemma e_0_l S : e (gz : G1 pr) S = gz.
Proof. apply (ga_cancel_l (e gz S)). rewrite <- e_add_l, ga_0_l, ga_0_r. reflexivity. Qed.
Lemma e_0_r P : e P (gz : G2 pr) = gz.
Proof. apply (ga_cancel_l (e P gz)). rewrite <- e_add_r, ga_0_l, ga_0_r. reflexivity. Qed.
Lemma e_neg_l P S : e (- P) S = - e P S.
Proof. apply gn_unique. rewrite <- e_add_l, gn_r. apply e_0_l. Qed.
Lemma e_neg_r P S : e P (- S) = - e P S.
Proof. apply gn_unique. rewrite <- e_add_r, gn_r. apply e_0_r. Qed.
Lemma e_smul_l k P S : e (smul k P) S = smul k (e P S).
Proof.
  assert (H : forall n, e (pmul n P) S = pmul n (e P S)).
  { induction n as [|n IH] using Pos.peano_ind; [reflexivity|]. rewrite !pmul_succ, e_add_l, IH. reflexivity. }
  destruct k; cbn [smul]; [apply e_0_l|apply H|rewrite e_neg_l, H; reflexivity].
Qed.
Lemma e_smul_r k P S : e P (smul k S) = smul k (e P S).
Proof.
  assert (H : forall n, e P (pmul n S) = pmul n (e P S)).
  { induction n as [|n IH] using Pos.peano_ind; [reflexivity|]. rewrite !pmul_succ, e_add_r, IH. reflexivity. }
  destruct k; cbn [smul]; [apply e_0_r|apply H|rewrite e_neg_r, H; reflexivity].
Qed.
Lemma G1_ord_all P : smul r P = gz.
Proof.
  destruct (G1_cyclic pr P) as [k ->]. rewrite <- smul_mul, Z.mul_comm, smul_mul, G1_ord. apply smul_gz.
Qed.
Lemma G2_ord_all S : smul r S = gz.
Proof.
  destruct (G2_cyclic pr S) as [k ->]. rewrite <- smul_mul, Z.mul_comm, smul_mul, G2_ord. apply smul_gz.
Qed.
Lemma gen1_nz : (gen1 : G1 pr) <> gz.
Proof. intros H. apply (e_nondeg pr). rewrite H. apply e_0_l. Qed.
Lemma gen2_nz : (gen2 : G2 pr) <> gz.
Proof. intros H. apply (e_nondeg pr). rewrite H. apply e_0_r. Qed.
Lemma e_gen_ord : smul r (e (gen1 : G1 pr) gen2) = gz.
Proof. rewrite <- e_smul_l, G1_ord. apply e_0_l. Qed.
(** Left non-degeneracy against the generator of G2. *)
Lemma e_gen2_inj P Q : e P gen2 = e Q gen2 -> P = Q.
Proof.
  intros H. destruct (G1_cyclic pr P) as [k ->]. destruct (G1_cyclic pr Q) as [l ->].
  rewrite !e_smul_l in H.
  apply smul_inj_scalar in H; [|apply e_gen_ord|apply e_nondeg].
  rewrite <- (smul_mod_ord gen1 k), <- (smul_mod_ord gen1 l), H by apply G1_ord. reflexivity.
Qed.
Lemma e_gen1_inj S T : e (gen1 : G1 pr) S = e gen1 T -> S = T.
Proof.
  intros H. destruct (G2_cyclic pr S) as [k ->]. destruct (G2_cyclic pr T) as [l ->].
  rewrite !e_smul_r in H.
  apply smul_inj_scalar in H; [|apply e_gen_ord|apply e_nondeg].
  rewrite <- (smul_mod_ord gen2 k), <- (smul_mod_ord gen2 l), H by apply G2_ord. reflexivity.
Qed.
End PairingLemmas.
