(** The points of a curve over a finite field form a finite group. *)
From Coq Require Import ZArith Znumtheory Lia Field.
From Verif Require Import Base Constants Group Field Curve PointModel EncodingModel CurveGroups Weierstrass CurveProofs OrderBound.
From mathcomp Require Import ssreflect ssrfun ssrbool eqtype ssrnat seq choice fintype.
Local Open Scope Z_scope.

(** [G] has [n] elements; the rest are consequences. *)
Record finite_order (G : grp) (n : Z) : Prop := {
  fo_pos : 0 < n;
  fo_list : exists l : list G, List.NoDup l /\ (forall P, List.In P l) /\ Z.of_nat (length l) = n;
  fo_kills : forall P : G, smul n P = gz;
  fo_power : forall l k (P : G), Znumtheory.prime l -> 0 <= k -> smul (l ^ (k + 1)) P = gz -> smul (l ^ k) P <> gz -> (l ^ (k + 1) | n);
  fo_square : forall l k (P Q : G), Znumtheory.prime l -> 0 <= k -> smul (l ^ (k + 1)) P = gz -> smul (l ^ k) P <> gz ->
    smul (l ^ (k + 1)) Q = gz -> (forall a, smul (l ^ k) Q <> smul a (smul (l ^ k) P)) -> (l ^ (k + 1) * l ^ (k + 1) | n);
  fo_bound : forall a k m (l : list G), Znumtheory.prime a -> 0 <= k -> 0 <= m -> (forall P : G, smul (a ^ (k + 1)) P = gz -> smul (a ^ k) P = gz) ->
    (forall P : G, smul a P = gz -> List.In P l) -> (a ^ m | n) -> a ^ m <= Z.of_nat (length l) ^ k
}.

Section Finite.
  Context (K : Type) (k0 k1 : K) (kadd kmul ksub : K -> K -> K) (kopp : K -> K) (kdiv : K -> K -> K) (kinv : K -> K).
  Context (keqb : K -> K -> bool) (b : K).
  Hypothesis Kfield : field_theory k0 k1 kadd kmul ksub kopp kdiv kinv (@eq K).
  Hypothesis keqb_spec : forall x y, keqb x y = true <-> x = y.
  Hypothesis two_nz : kadd k1 k1 <> k0.
  Hypothesis three_nz : kadd k1 (kadd k1 k1) <> k0.
  Hypothesis b_nz : b <> k0.
  Context (code : K -> nat) (decode : nat -> K) (decode_code : forall x, decode (code x) = x).
  Context (n : nat) (code_lt : forall x, is_true (leq (code x).+1 n)).
  Notation on := (on_curve K kadd kmul keqb b).
  Notation E := (curve_grp K k0 k1 kadd kmul ksub kopp kdiv kinv keqb b Kfield keqb_spec two_nz three_nz b_nz code decode decode_code).
  Notation to := (@proj1_sig (apoint K) (fun P => on P = true)).
  Notation of_ := (of_point K k0 k1 kadd kmul ksub kopp kdiv kinv keqb b Kfield keqb_spec two_nz three_nz b_nz code decode decode_code).
  Definition kord (x : K) : 'I_n := Ordinal (code_lt x).
  Definition pack (P : E) : option ('I_n * 'I_n) := match to P with None => None | Some (x, y) => Some (kord x, kord y) end.
  Definition unpack (c : option ('I_n * 'I_n)) : option E :=
    Some (of_ match c with None => None | Some (i, j) => Some (decode i, decode j) end).
  Lemma pack_unpack : pcancel pack unpack.
  Proof.
    move=> P. rewrite /unpack /pack. congr Some.
    transitivity (of_ (to P)); last exact: (of_to K k0 k1 kadd kmul ksub kopp kdiv kinv keqb b Kfield keqb_spec two_nz three_nz b_nz code decode decode_code P).
    congr of_point. case: (to P) => [[x y]|//]. by rewrite /= !decode_code.
  Qed.
  Definition fold_point (P : E) : option (bool * 'I_n) := match to P with None => None | Some (x, y) => Some ((code y <= code (kopp y))%N, kord x) end.
  Lemma code_inj x y : code x = code y -> x = y. Proof. move=> H. by rewrite -(decode_code x) H decode_code. Qed.
  Lemma fold_inj : injective fold_point.
  Proof.
    move=> P Q H. apply: (point_ext K kadd kmul keqb b). move: H. rewrite /fold_point. case: P => [P HP]. case: Q => [Q HQ]. cbn [proj1_sig].
    case: P HP => [[x y]|] HP; case: Q HQ => [[x' y']|] HQ //. move=> [H1 H2].
    have Ex : x = x' by exact: code_inj. subst x'. cbn [on_curve] in HP, HQ. apply keqb_spec in HP. apply keqb_spec in HQ.
    have [->//|E] := square_cases K k0 k1 kadd kmul ksub kopp kdiv kinv keqb Kfield keqb_spec y y' (eq_trans HP (esym HQ)).
    have N : kopp y' = y. { rewrite E. have := Kfield. move=> [R _ _ _]. exact: (Ropp_opp (Eqsth K) (Eq_ext kadd kmul kopp) R). }
    rewrite N in H1. rewrite -E in H1. suff -> : y = y' by []. apply: code_inj. apply/eqP. rewrite eqn_leq -H1 andbb. have := leq_total (code y) (code y'). by rewrite -H1 orbb.
  Qed.
  Lemma curve_finite : exists m, finite_order E m /\ m <= 2 * Z.of_nat n + 1.
  Proof.
    exists (order_of E _ pack unpack pack_unpack). split.
    - constructor.
      + exact: order_pos.
      + exact: order_list.
      + exact: order_kills.
      + exact: power_divides.
      + exact: square_divides.
      + exact: order_bound.
    - have := order_le E _ pack unpack pack_unpack _ fold_point fold_inj. rewrite card_option card_prod card_bool card_ord. change muln with Nat.mul. lia.
  Qed.
End Finite.
