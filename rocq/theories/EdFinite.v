(** The points of the Edwards curve form a finite group: some positive multiple kills every point. *)
From Coq Require Import ZArith Lia.
From Verif Require Import Base Constants Group Field Curve CurveGroups Edwards OrderBound.
From mathcomp Require Import ssreflect ssrfun ssrbool eqtype ssrnat seq choice fintype.
Local Open Scope Z_scope.

Section Finite.
  Context (n : nat) (code_lt : forall x, is_true (leq (q_code x).+1 n)).
  Definition ed_ord (x : fq) : 'I_n := Ordinal (code_lt x).
  Definition ed_pack (P : ed_grp) : 'I_n * 'I_n := (ed_ord (edp P).1, ed_ord (edp P).2).
  Definition ed_guard (P : fq * fq) : option ed_grp :=
    match Bool.bool_dec (ed_on P) true with left H => Some (exist _ P H : ed_grp) | right _ => None end.
  Definition ed_unpack (c : 'I_n * 'I_n) : option ed_grp := ed_guard (q_decode c.1, q_decode c.2).
  Lemma ed_guard_on (P : ed_grp) : ed_guard (edp P) = Some P.
  Proof.
    rewrite /ed_guard. case: (Bool.bool_dec _ _) => [H|H].
    - congr Some. exact: edp_ext.
    - by case: (H (edp_on P)).
  Qed.
  Lemma ed_pack_unpack : pcancel ed_pack ed_unpack.
  Proof. move=> P. rewrite /ed_unpack /ed_pack /= !q_decode_code -surjective_pairing. exact: ed_guard_on. Qed.
  Lemma ed_finite_n : exists m, 0 < m /\ forall P : ed_grp, smul m P = gz.
  Proof. exists (order_of ed_grp _ ed_pack ed_unpack ed_pack_unpack). split; [exact: order_pos|exact: order_kills]. Qed.
End Finite.
Lemma ed_finite : exists m, 0 < m /\ forall P : ed_grp, smul m P = gz.
Proof.
  apply: (ed_finite_n (Z.to_nat p)) => x. apply/ssrnat.ltP. have := fqv_range x. rewrite /q_code. move: (fqv x) p => a b. lia.
Qed.
