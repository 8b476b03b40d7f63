(** A concrete pairing structure (Z/r with multiplication), showing that the laws of [Group.v] are
    satisfiable with the real modulus.  Used by the non-vacuity examples. *)
From Coq Require Import ZArith Znumtheory List Bool Lia Eqdep_dec.
From Verif Require Import Prime Constants Group.
Import ListNotations.
Open Scope Z_scope.

Definition zr : Type := { z : Z | ((0 <=? z) && (z <? r)) = true }.

Lemma r_pos : 0 < r. Proof. reflexivity. Qed.

Lemma zr_range z : ((0 <=? z mod r) && (z mod r <? r)) = true.
Proof. pose proof (Z.mod_pos_bound z r r_pos). apply andb_true_iff. split; [apply Z.leb_le|apply Z.ltb_lt]; lia. Qed.

Definition zr_mk (z : Z) : zr := exist _ (z mod r) (zr_range z).
Definition zr_val (a : zr) : Z := proj1_sig a.

Lemma zr_ext (a b : zr) : zr_val a = zr_val b -> a = b.
Proof.
  destruct a as [a Ha], b as [b Hb]; cbn. intros ->. f_equal. apply UIP_dec, bool_dec.
Qed.
Lemma zr_val_mod a : zr_val a mod r = zr_val a.
Proof.
  destruct a as [a Ha]; cbn. apply andb_true_iff in Ha. destruct Ha as [H1 H2].
  apply Z.leb_le in H1. apply Z.ltb_lt in H2. apply Z.mod_small; lia.
Qed.
Lemma zr_val_mk z : zr_val (zr_mk z) = z mod r. Proof. reflexivity. Qed.

Lemma zr_eqb_spec (a b : zr) : (zr_val a =? zr_val b) = true <-> a = b.
Proof. rewrite Z.eqb_eq. split; [apply zr_ext|intros ->; reflexivity]. Qed.

Ltac zr_solve :=
  intros; apply zr_ext; rewrite ?zr_val_mk;
  rewrite ?Zplus_mod_idemp_l, ?Zplus_mod_idemp_r, ?Zmult_mod_idemp_l, ?Zmult_mod_idemp_r;
  try (f_equal; ring).

Definition zr_grp : grp.
Proof.
  refine (Grp zr (zr_mk 0) (fun a b => zr_mk (zr_val a + zr_val b)) (fun a => zr_mk (- zr_val a))
              (fun a b => zr_val a =? zr_val b) _ _ _ _ zr_eqb_spec).
  - zr_solve.
  - zr_solve.
  - intros a. apply zr_ext. rewrite !zr_val_mk, Zmod_0_l, Z.add_0_l. apply zr_val_mod.
  - intros a. apply zr_ext. rewrite !zr_val_mk, Zplus_mod_idemp_l, Z.add_opp_diag_l. reflexivity.
Defined.

Lemma zr_pmul n (a : zr_grp) : zr_val (pmul n a) = (Zpos n * zr_val a) mod r.
Proof.
  induction n as [|n IH] using Pos.peano_ind.
  - rewrite pmul_1, Z.mul_1_l. symmetry; apply zr_val_mod.
  - rewrite pmul_succ. cbn [ga zr_grp]. rewrite zr_val_mk, IH, Zplus_mod_idemp_r. f_equal. lia.
Qed.
Lemma zr_smul k (a : zr_grp) : zr_val (smul k a) = (k * zr_val a) mod r.
Proof.
  destruct k as [|n|n]; cbn [smul].
  - reflexivity.
  - apply zr_pmul.
  - cbn [gn zr_grp]. rewrite zr_val_mk, zr_pmul.
    rewrite <- Z.sub_0_l, Zminus_mod_idemp_r. f_equal. lia.
Qed.

Definition zr_gen (k : Z) : zr_grp := zr_mk k.

Lemma zr_cyclic (a : zr_grp) : exists k, a = smul k (zr_gen 1).
Proof.
  exists (zr_val a). apply zr_ext. rewrite zr_smul. cbn. rewrite Z.mul_1_r. symmetry; apply zr_val_mod.
Qed.
Lemma zr_ord : smul r (zr_gen 1) = gz.
Proof. apply zr_ext. rewrite zr_smul, Z.mul_comm, Z_mod_mult. reflexivity. Qed.

Definition zr_e (a b : zr_grp) : zr_grp := zr_mk (zr_val a * zr_val b).

Definition zr_pairing : pairing.
Proof.
  refine (Pairing zr_grp zr_grp zr_grp (zr_gen 1) (zr_gen 1) zr_e _ _ zr_cyclic zr_cyclic zr_ord zr_ord _).
  - unfold zr_e; cbn [ga zr_grp]. zr_solve.
  - unfold zr_e; cbn [ga zr_grp]. zr_solve.
  - intros H. apply (f_equal zr_val) in H. vm_compute in H. discriminate.
Defined.
