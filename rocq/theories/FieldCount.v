(** The number of points of a curve y^2 = x^3 + b over a finite field, for the curves of Curve.v. *)
From Coq Require Import ZArith Lia Field.
From Verif Require Import Base Curve CurveGroups CurveFinite CubicCount.
From mathcomp Require Import ssreflect ssrfun ssrbool eqtype ssrnat seq choice fintype div bigop ssralg finalg.
Import GRing.Theory.

Lemma aux_on a s : (1 + (a + s) = a + 1 + s)%Z. Proof. ring. Qed.
Section Packed.
  Context (K : Type) (k0 k1 : K) (kadd kmul ksub : K -> K -> K) (kopp : K -> K) (kdiv : K -> K -> K) (kinv : K -> K).
  Context (keqb : K -> K -> bool) (b : K).
  Hypothesis Kfield : field_theory k0 k1 kadd kmul ksub kopp kdiv kinv (@eq K).
  Hypothesis keqb_spec : forall x y, keqb x y = true <-> x = y.
  Hypothesis two_nz : kadd k1 k1 <> k0.
  Hypothesis three_nz : kadd k1 (kadd k1 k1) <> k0.
  Hypothesis b_nz : b <> k0.
  Context (code : K -> nat) (decode : nat -> K) (decode_code : forall x, decode (code x) = x).
  Context (n : nat) (code_lt : forall x, is_true (leq (code x).+1 n)) (code_decode : forall i, is_true (leq i.+1 n) -> code (decode i) = i).
  Add Field KF : Kfield.
  Lemma keqP : Equality.axiom keqb.
  Proof. move=> x y. apply: (iffP idP); apply keqb_spec. Qed.
  Local Canonical K_eqType := Eval hnf in EqType K (EqMixin keqP).
  Local Canonical K_choiceType := Eval hnf in ChoiceType K (CanChoiceMixin decode_code).
  Local Canonical K_countType := Eval hnf in CountType K (CanCountMixin decode_code).
  Lemma ord_can : cancel (fun x => Ordinal (code_lt x)) (fun i : 'I_n => decode i). Proof. exact: decode_code. Qed.
  Local Canonical K_finType := Eval hnf in FinType K (CanFinMixin ord_can).
  Lemma kaddA : associative kadd. Proof. move=> x y z. ring. Qed.
  Lemma kaddC : commutative kadd. Proof. move=> x y. ring. Qed.
  Lemma kadd0 : left_id k0 kadd. Proof. move=> x. ring. Qed.
  Lemma kaddN : left_inverse k0 kopp kadd. Proof. move=> x. ring. Qed.
  Local Canonical K_zmodType := Eval hnf in ZmodType K (ZmodMixin kaddA kaddC kadd0 kaddN).
  Lemma kmulA : associative kmul. Proof. move=> x y z. ring. Qed.
  Lemma kmulC : commutative kmul. Proof. move=> x y. ring. Qed.
  Lemma kmul1 : left_id k1 kmul. Proof. move=> x. ring. Qed.
  Lemma kmulD : left_distributive kmul kadd. Proof. move=> x y z. ring. Qed.
  Lemma k1_nz : k1 != k0. Proof. apply/keqP. exact: (F_1_neq_0 Kfield). Qed.
  Local Canonical K_ringType := Eval hnf in RingType K (ComRingMixin kmulA kmulC kmul1 kmulD k1_nz).
  Local Canonical K_comRingType := Eval hnf in ComRingType K kmulC.
  Definition kinv0 (x : K) : K := if keqb x k0 then k0 else kinv x.
  Lemma kmulV : GRing.Field.axiom (kinv0 : K_ringType -> K_ringType).
  Proof.
    move=> x Hx. rewrite /kinv0. case E: (keqb x k0).
    - exfalso. move/negP: Hx. apply. exact: E.
    - apply: (Finv_l Kfield). move/keqb_spec. by rewrite E.
  Qed.
  Lemma kinv0_0 : kinv0 k0 = k0. Proof. rewrite /kinv0. by case: (keqb k0 k0) (proj2 (keqb_spec k0 k0) erefl). Qed.
  Local Canonical K_unitRingType := Eval hnf in UnitRingType K (FieldUnitMixin kmulV kinv0_0).
  Local Canonical K_comUnitRingType := Eval hnf in [comUnitRingType of K].
  Lemma k_field_axiom : GRing.Field.mixin_of K_unitRingType. Proof. done. Qed.
  Local Canonical K_idomainType := Eval hnf in IdomainType K (FieldIdomainMixin k_field_axiom).
  Local Canonical K_fieldType := Eval hnf in FieldType K k_field_axiom.
  Local Canonical K_finZmodType := Eval hnf in [finZmodType of K].
  Local Canonical K_finRingType := Eval hnf in [finRingType of K].
  Local Canonical K_finComRingType := Eval hnf in [finComRingType of K].
  Local Canonical K_finUnitRingType := Eval hnf in [finUnitRingType of K].
  Local Canonical K_finComUnitRingType := Eval hnf in [finComUnitRingType of K].
  Local Canonical K_finIdomainType := Eval hnf in [finIdomainType of K].
  Local Canonical K_finFieldType := Eval hnf in [finFieldType of K].
  Lemma card_K : #|K_finFieldType| = n.
  Proof.
    rewrite -[RHS]card_ord. apply: (@bij_eq_card _ _ (fun x : K_finFieldType => Ordinal (code_lt x))).
    exists (fun i : 'I_n => decode i); first exact: decode_code. move=> i. apply: val_inj. exact: code_decode.
  Qed.
  Notation E := (curve_grp K k0 k1 kadd kmul ksub kopp kdiv kinv keqb b Kfield keqb_spec two_nz three_nz b_nz code decode decode_code).
  Notation on := (on_curve K kadd kmul keqb b).
  Local Notation F := K_finFieldType.
  Definition sum : Z := char_sum F b.
  Lemma sum_norm : (6 %| n.-1)%N -> exists d, (sum * sum + 3 * d * d = 4 * Z.of_nat n)%Z.
  Proof. move=> H. have := cubic_sum F. rewrite card_K => X. apply: (X H b). by apply/keqP. Qed.
  Lemma on_count : (6 %| n.-1)%N -> \zsum_(P : option (F * F)) (if on P then 1%Z else 0%Z) = (Z.of_nat n + 1 + sum)%Z.
  Proof.
    move=> H. have X := solutions F. rewrite card_K in X. rewrite (bigD1 None) //=.
    rewrite (reindex_omap (fun z : F * F => Some z) id) /=; last by case.
    rewrite (eq_bigl predT); last by move=> z /=; rewrite eqxx.
    rewrite (eq_bigr (fun z : F * F => if (z.2 * z.2 == z.1 ^+ 3 + b)%R then 1%Z else 0%Z)).
    - rewrite (X H b). exact: (aux_on (Z.of_nat n) sum).
    - move=> [x y] _ /=. congr (if _ then _ else _).
  Qed.
  Lemma points_count m : (6 %| n.-1)%N -> finite_order E m -> m = (Z.of_nat n + 1 + sum)%Z.
  Proof.
    move=> H Fo. rewrite -(on_count H). have [l [D [A L]]] := fo_list E m Fo. rewrite zsum_count -L. congr Z.of_nat.
    pose l' : seq (option (F * F)) := map (@proj1_sig (apoint K) (fun P => on P = true)) l.
    have -> : length l = size l' by rewrite size_map.
    have inj : injective (@proj1_sig (apoint K) (fun P => on P = true)) by move=> P Q; exact: (point_ext K kadd kmul keqb b).
    have mem P : reflect (List.In P (l' : list (option (K * K)))) (P \in l').
    { elim: l' => [|Q l2 IH] /=; first by constructor. rewrite inE. have [->|N] := eqVneq P Q; first by constructor; left.
      apply: (iffP IH); [by right|]. case=> // E. by rewrite E eqxx in N. }
    have U : uniq l'.
    { clear A mem. rewrite /l'. clear L l'. elim: D => [|P l2 N D IH] //=. rewrite IH andbT. apply/negP => M. apply: N.
      elim: l2 M {D IH} => [|Q l2 IH] //=. rewrite inE => /orP [/eqP E|M]; [left; exact/esym/inj|right; exact: IH]. }
    rewrite -(card_uniqP U). apply: eq_card => P. apply/(mem P)/idP => HP.
    - move: HP. move/List.in_map_iff => [[Q HQ] [<- _]]. exact: HQ.
    - have := List.in_map (@proj1_sig (apoint K) (fun P => on P = true)) l (exist _ P HP) (A _). done.
  Qed.
  (** the number of points: the trace [a] satisfies a^2 + 3 d^2 = 4 n *)
  Lemma order_norm m : (exists k, Z.of_nat n = 6 * k + 1)%Z -> finite_order E m -> exists a d, (m = Z.of_nat n + 1 - a /\ a * a + 3 * d * d = 4 * Z.of_nat n)%Z.
  Proof.
    move=> [k Hk] Fo. have H : (6 %| n.-1)%N.
    { apply/dvdnP. exists (Z.to_nat k). change muln with Nat.mul. lia. }
    have [d Hd] := sum_norm H. exists (- sum)%Z, d. rewrite (points_count m H Fo). lia.
  Qed.
End Packed.
