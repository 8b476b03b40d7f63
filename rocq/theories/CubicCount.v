(** The number of points of a curve y^2 = x^3 + b over a finite field with q elements, q = 1 modulo 6: it is q + 1 - a with
    a^2 + 3 d^2 = 4 q for some d.  The proof takes the mean of the squares of the character sums over all b. *)
From Coq Require Import ZArith Lia.
From mathcomp Require Import ssreflect ssrfun ssrbool eqtype ssrnat seq choice fintype div bigop finset ssralg fingroup cyclic finalg.
From mathcomp Require Import prime finfield.
Import GRing.Theory.
Local Open Scope ring_scope.

Canonical Zadd_monoid := Monoid.Law Z.add_assoc Z.add_0_l Z.add_0_r.
Canonical Zadd_comoid := Monoid.ComLaw Z.add_comm.
Canonical Zmul_monoid := Monoid.Law Z.mul_assoc Z.mul_1_l Z.mul_1_r.
Canonical Zmul_comoid := Monoid.ComLaw Z.mul_comm.
Canonical Zmul_muloid := Monoid.MulLaw Z.mul_0_l Z.mul_0_r.
Canonical Zadd_addoid := Monoid.AddLaw Z.mul_add_distr_r Z.mul_add_distr_l.
Notation "\zsum_ ( i : t ) F" := (\big[Z.add/0%Z]_(i : t) F) (at level 41, F at level 41, i at level 50, format "\zsum_ ( i  :  t )  F").
Notation "a +z b" := (Z.add a b) (at level 50, left associativity).
Notation "a *z b" := (Z.mul a b) (at level 40, left associativity).

Section Sums.
  Variable T : finType.
  Lemma zsum_const (c : Z) : (\zsum_(x : T) c = Z.of_nat #|T| * c)%Z.
  Proof. rewrite big_const. elim: #|T| => [|n IH] //. rewrite iterS IH Nat2Z.inj_succ. ring. Qed.
  Lemma zsum_scale (c : Z) (f : T -> Z) : (\zsum_(x : T) (c * f x) = c * \zsum_(x : T) f x)%Z.
  Proof. by rewrite -(big_distrr (times := Zmul_muloid) (plus := Zadd_addoid)). Qed.
  Lemma zsum_add (f g : T -> Z) : (\zsum_(x : T) (f x + g x) = \zsum_(x : T) f x + \zsum_(x : T) g x)%Z.
  Proof. exact: big_split. Qed.
  Lemma zsum_opp (f : T -> Z) : (\zsum_(x : T) - f x = - \zsum_(x : T) f x)%Z.
  Proof. transitivity (\zsum_(x : T) (-1 * f x))%Z; last by rewrite zsum_scale; lia. apply: eq_bigr => x _. lia. Qed.
  Lemma zsum_pred1 (a : T) (c : Z) : (\zsum_(x : T) (if x == a then c else 0) = c)%Z.
  Proof. rewrite (bigD1 a) //= eqxx big1; first lia. by move=> i /negbTE ->. Qed.
  Lemma zsum_nonneg (f : T -> Z) : (forall x, 0 <= f x)%Z -> (0 <= \zsum_(x : T) f x)%Z.
  Proof. move=> H. apply: (big_ind (fun z => 0 <= z)%Z) => // *; lia. Qed.
  Lemma zsum_zero (f : T -> Z) : (forall x, 0 <= f x)%Z -> (\zsum_(x : T) f x = 0)%Z -> forall x, f x = 0%Z.
  Proof.
    move=> H E x. move: E. rewrite (bigD1 x) //=. set s := \big[_/_]_(i | _) _ => E.
    have : (0 <= s)%Z by apply: (big_ind (fun z => 0 <= z)%Z) => // *; lia. have := H x. lia.
  Qed.
  Lemma zsum_count (P : pred T) : (\zsum_(x : T) (if P x then 1 else 0) = Z.of_nat #|P|)%Z.
  Proof.
    rewrite -sum1_card -big_mkcond /=. rewrite (big_morph Z.of_nat (id1 := 0%Z) (op1 := Z.add)) //. exact: Nat2Z.inj_add.
  Qed.
End Sums.
Lemma zsum_prod (T U : finType) (f : T -> U -> Z) : (\zsum_(x : T) \zsum_(y : U) f x y = \zsum_(z : (T * U)%type) f z.1 z.2)%Z.
Proof. by rewrite pair_big. Qed.
Lemma zsum_mul (T U : finType) (f : T -> Z) (h : U -> Z) : (\zsum_(x : T) f x) *z (\zsum_(y : U) h y) = \zsum_(x : T) \zsum_(y : U) (f x *z h y).
Proof. rewrite Z.mul_comm -zsum_scale. apply: eq_bigr => x _. by rewrite Z.mul_comm zsum_scale. Qed.

Section Ident.
  Context {R : Type} {r0 r1 : R} {radd rmul rsub : R -> R -> R} {ropp : R -> R} (Rr : ring_theory r0 r1 radd rmul rsub ropp eq).
  Add Ring RR : Rr.
  Lemma ident_1 w : rmul (rsub w r1) (radd (radd r1 w) (rmul w w)) = rsub (rmul (rmul w w) w) r1. Proof. ring. Qed.
  Lemma ident_2 w x y : rmul (rsub y x) (rmul (rsub y (rmul w x)) (rsub y (rmul (rmul w w) x))) =
    radd (rsub (rmul (rmul y y) y) (rmul (rmul x x) x)) (rmul (radd (radd r1 w) (rmul w w)) (rmul (rsub y x) (rsub (rmul (rsub w r1) (rmul x x)) (rmul x y)))).
  Proof. ring. Qed.
End Ident.

Lemma aux_3 a : (a * 3 + -2 = 3 * a - 2)%Z. Proof. ring. Qed.
Lemma aux_mean a b : (a * b + a * (a * -1) = a * b - a * a)%Z. Proof. ring. Qed.
Lemma aux_total a : (1 * (a * (3 * a - 2) - a * a) = 2 * a * (a - 1))%Z. Proof. ring. Qed.
Lemma aux_cross a : (1 * (a * 1 - a * a) = a - a * a)%Z. Proof. ring. Qed.
Lemma aux_D t : (t + t + t = 3 * t)%Z. Proof. ring. Qed.
Lemma aux_P a b c : ((a + b + c) * (a + b + c) = a * a + b * b + c * c + 2 * (a * b) + 2 * (b * c) + 2 * (a * c))%Z. Proof. ring. Qed.
Lemma aux_PT a : (3 * (2 * a * (a - 1)) + 2 * (a - a * a) + 2 * (a - a * a) + 2 * (a - a * a) = 0)%Z. Proof. ring. Qed.
Lemma aux_Dg a b c : (c * c + - a * - a + - b * - b = a * a + b * b + - c * - c)%Z. Proof. ring. Qed.
Lemma aux_Deq a d : (1 < a -> a * d + - d = 3 * (2 * a * (a - 1)) -> d = 6 * a)%Z. Proof. nia. Qed.
Lemma aux_norm n a b c : (a * a + b * b + c * c = 6 * n -> a + b + c = 0 -> exists d, a * a + 3 * d * d = 4 * n)%Z.
Proof.
  move=> H1 H2. have Ec : (c = - a - b)%Z by lia. subst c. have H : (3 * (a * a) + (a + 2 * b) * (a + 2 * b) = 12 * n)%Z by lia.
  have [k Hk] : (exists k, a + 2 * b = 3 * k)%Z.
  { have D : (Z.modulo ((a + 2 * b) * (a + 2 * b)) 3 = 0)%Z by rewrite (_ : (a + 2 * b) * (a + 2 * b) = (4 * n - a * a) * 3)%Z; [apply Z.mod_mul|lia].
    exists ((a + 2 * b) / 3)%Z. have := Z.div_mod (a + 2 * b)%Z 3 ltac:(lia). have := Z.mod_pos_bound (a + 2 * b)%Z 3 ltac:(lia). rewrite Z.mul_mod // in D.
    move: (Z.modulo (a + 2 * b) 3) D => m D B E. have [X|[X|X]] : (m = 0 \/ m = 1 \/ m = 2)%Z by lia. all: subst m; move: D; try done. lia. }
  exists k. nia.
Qed.

Section Count.
  Variable F : finFieldType.
  Local Notation q := #|F|.
  Hypothesis six : (6 %| q.-1)%N.
  Local Notation zq := (Z.of_nat q).
  Lemma q_gt1 : (1 < q)%N. Proof. apply/card_gt1P. exists 0, 1. split => //. by rewrite eq_sym oner_neq0. Qed.
  Lemma two_div : (2 %| q.-1)%N. Proof. exact: dvdn_trans six. Qed.
  Lemma three_div : (3 %| q.-1)%N. Proof. exact: dvdn_trans six. Qed.

  (** a generator of the multiplicative group *)
  Lemma generator : exists g : F, [/\ g != 0, forall x, x != 0 -> exists k, x = g ^+ k & forall i j, g ^+ i = g ^+ j -> i = j %[mod q.-1]].
  Proof.
    have /cyclicP [u Hu] := field_unit_group_cyclic [set: {unit F}]%G. have Ho : #[u]%g = q.-1 by rewrite orderE -Hu card_finField_unit.
    exists (val u). split.
    - by rewrite -unitfE; exact: (valP u).
    - move=> x. rewrite -unitfE => Hx. have : FinRing.unit F Hx \in [set: {unit F}] by rewrite inE. rewrite Hu => /cycleP [k E]. exists k.
      have := congr1 val E. by rewrite /= FinRing.val_unitX.
    - move=> i j E. rewrite -Ho. apply/eqP. rewrite -eq_expg_mod_order. apply/eqP/val_inj. by rewrite /= !FinRing.val_unitX.
  Qed.

  Lemma fsum_const (c : Z) : \zsum_(x : F) c = zq *z c. Proof. exact: zsum_const. Qed.
  Lemma F_ring : ring_theory (0 : F) 1 +%R *%R (fun x y => x - y) -%R eq.
  Proof. split; [exact: add0r|exact: addrC|exact: addrA|exact: mul1r|exact: mulrC|exact: mulrA|exact: mulrDl|done|exact: subrr]. Qed.
  Lemma cube_minus_1 (w : F) : (w - 1) * (1 + w + w * w) = w * w * w - 1. Proof. exact: (ident_1 F_ring). Qed.
  Lemma cube_minus (w x y : F) : (y - x) * ((y - w * x) * (y - w * w * x)) = y * y * y - x * x * x + (1 + w + w * w) * ((y - x) * ((w - 1) * (x * x) - x * y)).
  Proof. exact: (ident_2 F_ring). Qed.
  (** the quadratic character *)
  Definition is_sq (z : F) : bool := [exists y, z == y ^+ 2].
  Definition chi (z : F) : Z := if z == 0 then 0%Z else if is_sq z then 1%Z else (-1)%Z.
  Section Generator.
    Variable g : F.
    Hypothesis g0 : g != 0.
    Hypothesis g_all : forall x, x != 0 -> exists k, x = g ^+ k.
    Hypothesis g_inj : forall i j, g ^+ i = g ^+ j -> i = j %[mod q.-1].
    Lemma gk0 k : g ^+ k != 0. Proof. exact: expf_neq0. Qed.
    Lemma mod_of (m i j : nat) : (m %| q.-1)%N -> g ^+ i = g ^+ j -> i = j %[mod m].
    Proof. move=> D /g_inj E. have := congr1 (modn^~ m) E. by rewrite !modn_dvdm. Qed.
    Lemma chi_gk k : chi (g ^+ k) = if odd k then (-1)%Z else 1%Z.
    Proof.
      rewrite /chi (negbTE (gk0 k)). case: ifP => Hs; case: ifP => Ho //.
      - move: Hs => /existsP [y /eqP E]. have y0 : y != 0 by apply: contraTneq (gk0 k) => Y; rewrite E Y expr0n /= eqxx.
        have [j Ej] := g_all y y0. rewrite Ej -exprM in E. have := mod_of 2 _ _ two_div E. by rewrite !modn2 Ho oddM andbF.
      - move: Hs => /negbT /existsP []. exists (g ^+ k./2). by rewrite -exprM muln2 -{1}(odd_double_half k) Ho.
    Qed.
    Lemma chi0 : chi 0 = 0%Z. Proof. by rewrite /chi eqxx. Qed.
    Lemma chi_mul x y : chi (x * y) = chi x *z chi y.
    Proof.
      have [->|Hx] := eqVneq x 0; first by rewrite mul0r chi0. have [->|Hy] := eqVneq y 0; first by rewrite mulr0 chi0; lia.
      have [i ->] := g_all x Hx. have [j ->] := g_all y Hy. rewrite -exprD !chi_gk oddD. by case: (odd i); case: (odd j).
    Qed.
    Lemma chi_sq x : x != 0 -> (chi x *z chi x = 1%Z).
    Proof. move=> Hx. have [i ->] := g_all x Hx. rewrite chi_gk. by case: odd. Qed.
    Lemma chi1 : chi 1 = 1%Z. Proof. have := chi_gk 0. by rewrite expr0. Qed.
    Lemma chi_g : chi g = (-1)%Z. Proof. have := chi_gk 1. by rewrite expr1. Qed.
    Lemma reindex_mul (c : F) (f : F -> Z) : c != 0 -> \zsum_(x : F) f (c * x) = \zsum_(x : F) f x.
    Proof. move=> Hc. rewrite [RHS](reindex (fun x => c * x)) //. exists (fun x => c^-1 * x) => x _; by rewrite ?mulKf ?mulVKf. Qed.
    Lemma reindex_add (c : F) (f : F -> Z) : \zsum_(x : F) f (x + c) = \zsum_(x : F) f x.
    Proof. rewrite [RHS](reindex (fun x => x + c)) //. exists (fun x => x - c) => x _; by rewrite ?addrK ?subrK. Qed.
    Lemma chi_sum : \zsum_(x : F) chi x = 0%Z.
    Proof.
      have := reindex_mul g chi g0. rewrite (eq_bigr (fun x => - chi x)%Z); last first. move=> x _. rewrite chi_mul chi_g. lia. rewrite zsum_opp. move: (\big[_/_]_x _) => s. lia.
    Qed.
    Lemma chi_pair (u v : F) : \zsum_(b : F) (chi (u + b) *z chi (v + b)) = (if u == v then (zq - 1)%Z else (-1)%Z).
    Proof.
      have [->|N] := eqVneq u v.
      - rewrite (eq_bigr (fun b => 1%Z +z Z.opp (if b == - v then 1%Z else 0%Z))); first by rewrite zsum_add zsum_opp fsum_const zsum_pred1 Z.mul_1_r.
        move=> b _. have [->|Hb] := eqVneq b (- v); first by rewrite subrr chi0. rewrite chi_sq; first lia. by rewrite addr_eq0 -eqr_oppLR eq_sym.
      - set w := v - u. have w0 : w != 0 by rewrite subr_eq0 eq_sym.
        have <- : \zsum_(b : F) (chi b *z chi (w + b)) = \zsum_(b : F) (chi (u + b) *z chi (v + b)).
        { rewrite -(reindex_add u (fun b => chi b *z chi (w + b))). apply: eq_bigr => b _. by rewrite addrA [w + b]addrC -addrA subrK [b + u]addrC [b + v]addrC. }
        have <- : \zsum_(b : F) (if b == 1 then 0%Z else chi b) = (-1)%Z.
        { rewrite (eq_bigr (fun b => chi b +z Z.opp (if b == 1 then 1%Z else 0%Z))); first by rewrite zsum_add zsum_opp chi_sum zsum_pred1.
          move=> b _. case: eqP => [->|_]; rewrite ?chi1; lia. }
        clearbody w. rewrite [RHS](reindex (fun b => 1 + w * b^-1)) /=.
        + apply: eq_bigr => b _. have [->|Hb] := eqVneq b 0; first by rewrite chi0 invr0 mulr0 !addr0 eqxx.
          rewrite -{2}[1]addr0 (inj_eq (addrI 1)) mulf_eq0 invr_eq0 (negbTE w0) (negbTE Hb) /=.
          have -> : 1 + w / b = (w + b) / b by rewrite mulrDl (divff Hb) addrC.
          rewrite chi_mul Z.mul_comm. congr (_ * _)%Z. have := chi_mul b b^-1. rewrite (divff Hb) chi1. have := chi_sq b Hb. nia.
        + exists (fun z => w / (z - 1)) => b _.
          * by rewrite [1 + _]addrC addrK invf_div mulrCA divff // mulr1.
          * by rewrite invf_div mulrCA divff // mulr1 addrC subrK.
    Qed.

    (** the sums over the curves *)
    Definition char_sum (b : F) : Z := \zsum_(x : F) chi (x ^+ 3 + b).
    Definition pairs (c : F) : Z := \zsum_(x : F) \zsum_(y : F) (if c * x ^+ 3 == y ^+ 3 then 1%Z else 0%Z).
    Lemma mean c : c != 0 -> \zsum_(b : F) (char_sum b *z char_sum (c * b)) = chi c *z (zq *z pairs c - zq *z zq)%Z.
    Proof.
      move=> Hc. transitivity (\zsum_(x : F) \zsum_(y : F) \zsum_(b : F) (chi (x ^+ 3 + b) *z chi (y ^+ 3 + c * b))).
      { rewrite (eq_bigr (fun b => \zsum_(x : F) \zsum_(y : F) (chi (x ^+ 3 + b) *z chi (y ^+ 3 + c * b)))); last by move=> b _; rewrite /char_sum zsum_mul.
        rewrite exchange_big /=. apply: eq_bigr => x _. by rewrite exchange_big. }
      transitivity (\zsum_(x : F) \zsum_(y : F) (chi c *z (zq *z (if c * x ^+ 3 == y ^+ 3 then 1%Z else 0%Z) +z (-1)%Z))).
      { apply: eq_bigr => x _. apply: eq_bigr => y _. rewrite (eq_bigr (fun b => chi c *z (chi (x ^+ 3 + b) *z chi (y ^+ 3 / c + b)))).
        - rewrite zsum_scale chi_pair. congr (_ *z _). have -> : (x ^+ 3 == y ^+ 3 / c) = (c * x ^+ 3 == y ^+ 3).
          { by rewrite -(inj_eq (mulfI Hc)) [y ^+ 3 / c]mulrC mulVKf. }
          case: ifP => _; rewrite ?Z.mul_1_r ?Z.mul_0_r //.
        - move=> b _. have -> : y ^+ 3 + c * b = c * (y ^+ 3 / c + b) by rewrite mulrDr [y ^+ 3 / c]mulrC mulVKf. rewrite (chi_mul c). rewrite Z.mul_assoc [chi _ *z chi c]Z.mul_comm -Z.mul_assoc //. }
      rewrite (eq_bigr (fun x => chi c *z (zq *z (\zsum_(y : F) (if c * x ^+ 3 == y ^+ 3 then 1%Z else 0%Z)) +z (zq *z (-1)%Z)))).
      - rewrite zsum_scale zsum_add zsum_scale fsum_const. congr (_ *z _). exact: (aux_mean zq (pairs c)).
      - move=> x _. by rewrite zsum_scale zsum_add zsum_scale fsum_const.
    Qed.
    Lemma pairs_noncube m : (m %% 3 != 0)%N -> pairs (g ^+ m) = 1%Z.
    Proof.
      move=> Hm. transitivity (\zsum_(x : F) (if x == 0 then 1%Z else 0%Z)); last exact: zsum_pred1. apply: eq_bigr => x _.
      have [->|Hx] := eqVneq x 0.
      - transitivity (\zsum_(y : F) (if y == 0 then 1%Z else 0%Z)); last exact: zsum_pred1. apply: eq_bigr => y _. by rewrite expr0n mulr0 eq_sym expf_eq0.
      - apply: big1 => y _. case: eqP => // E. have Hy : y != 0.
        { apply/eqP => Y. move: E. rewrite Y [0 ^+ 3]expr0n /=. move/eqP. by rewrite mulf_eq0 (negbTE (gk0 m)) expf_eq0 (negbTE Hx). }
        have [i Ei] := g_all x Hx. have [j Ej] := g_all y Hy. rewrite Ei Ej -!exprM -exprD in E. have := mod_of 3 _ _ three_div E.
        rewrite modnMl -modnDmr modnMl addn0 => E0. by rewrite E0 in Hm.
    Qed.

    Lemma cube_root : exists w : F, [/\ w != 1, w != 0 & 1 + w + w * w = 0].
    Proof.
      exists (g ^+ (q.-1 %/ 3)). set w := g ^+ _. have w3 : w * w * w = 1.
      { rewrite /w -!exprD -{1 2 3}[(_ %/ _)%N]muln1 -!mulnDr /= divnK ?three_div //. apply: (mulIf g0). rewrite -exprSr mul1r prednK ?expf_card //. exact: ltnW q_gt1. }
      have w1 : w != 1.
      { apply/eqP => E. have := g_inj (q.-1 %/ 3) 0 E. rewrite mod0n modn_small; last by rewrite ltn_Pdiv // -ltnS prednK ?q_gt1 // ltnW ?q_gt1.
        move=> E0. have := divnK three_div. rewrite E0 mul0n => E1. have := q_gt1. by rewrite -(prednK (ltnW q_gt1)) -E1. }
      split => //; first exact: gk0. have : (w - 1) * (1 + w + w * w) = 0 by rewrite cube_minus_1 w3 subrr.
      move/eqP. rewrite mulf_eq0 subr_eq0 (negbTE w1) /=. by move/eqP.
    Qed.
    Lemma pairs_1 : pairs 1 = (3 * zq - 2)%Z.
    Proof.
      have [w [w1 w0 w3]] := cube_root.
      have ww : w * w != w by apply: contra w1 => /eqP E; rewrite -(inj_eq (mulfI w0)) mulr1 E.
      have www : w * w * w = 1 by apply/eqP; rewrite -subr_eq0 -cube_minus_1 w3 mulr0.
      have ww1 : w * w != 1 by apply: contra w1 => /eqP E; rewrite -www E mul1r.
      transitivity (\zsum_(x : F) (3%Z +z (if x == 0 then (-2)%Z else 0%Z))); last by rewrite zsum_add fsum_const zsum_pred1; exact: (aux_3 zq).
      apply: eq_bigr => x _. have [->|Hx] := eqVneq x 0.
      { transitivity (\zsum_(y : F) (if y == 0 then 1%Z else 0%Z)); last exact: zsum_pred1. apply: eq_bigr => y _. by rewrite expr0n mulr0 eq_sym expf_eq0. }
      transitivity (\zsum_(y : F) ((if y == x then 1%Z else 0%Z) +z ((if y == w * x then 1%Z else 0%Z) +z (if y == w * w * x then 1%Z else 0%Z)))); last by rewrite !zsum_add !zsum_pred1.
      apply: eq_bigr => y _. rewrite mul1r.
      have E : y ^+ 3 - x ^+ 3 = (y - x) * ((y - w * x) * (y - w * w * x)).
      { by rewrite cube_minus w3 mul0r addr0 !exprS !expr0 !mulr1 !mulrA. }
      have -> : (x ^+ 3 == y ^+ 3) = (y == x) || ((y == w * x) || (y == w * w * x)).
      { by rewrite eq_sym -subr_eq0 E !mulf_eq0 !subr_eq0. }
      have [->|N1] := eqVneq y x. { have A c : (x == c * x) = (c == 1) by rewrite -{1}[x]mul1r (inj_eq (mulIf Hx)) eq_sym. by rewrite !A (negbTE w1) (negbTE ww1). }
      have [->|N2] := eqVneq y (w * x); last by case: eqP. by rewrite (inj_eq (mulIf Hx)) eq_sym (negbTE ww).
    Qed.

    Lemma S_0 : char_sum 0 = 0%Z.
    Proof. rewrite -chi_sum. apply: eq_bigr => x _. rewrite addr0 !exprS expr0 mulr1 !chi_mul. have [->|Hx] := eqVneq x 0; first by rewrite chi0. by rewrite chi_sq // Z.mul_1_r. Qed.
    Lemma S_g3 b : char_sum (g ^+ 3 * b) = Z.opp (char_sum b).
    Proof.
      rewrite {1}/char_sum -(reindex_mul g (fun x => chi (x ^+ 3 + g ^+ 3 * b)) g0) /char_sum -zsum_opp. apply: eq_bigr => x _. by rewrite exprMn -mulrDr chi_mul chi_gk.
    Qed.
    Let s := g ^+ 2.
    Lemma s0 : s != 0. Proof. exact: gk0. Qed.
    Definition total := \zsum_(b : F) (char_sum b *z char_sum b).
    Lemma total_eq : total = (2 * zq * (zq - 1))%Z.
    Proof.
      have := mean 1 (oner_neq0 _). rewrite pairs_1 chi1 (eq_bigr (fun b => char_sum b *z char_sum b)); last by move=> b _; rewrite mul1r. rewrite -/total => ->. exact: (aux_total zq).
    Qed.
    Lemma cross_eq : \zsum_(b : F) (char_sum b *z char_sum (s * b)) = (zq - zq * zq)%Z.
    Proof. rewrite (mean s s0) pairs_noncube // chi_gk /=. exact: (aux_cross zq). Qed.
    Lemma cross_eq2 : \zsum_(b : F) (char_sum b *z char_sum (s * (s * b))) = (zq - zq * zq)%Z.
    Proof.
      rewrite (eq_bigr (fun b => char_sum b *z char_sum (g ^+ 4 * b))); last by move=> b _; rewrite mulrA -exprD. rewrite (mean _ (gk0 4)) pairs_noncube // chi_gk /=. exact: (aux_cross zq).
    Qed.
    Definition three_sum b := char_sum b +z char_sum (s * b) +z char_sum (s * (s * b)).
    Definition squares b := char_sum b *z char_sum b +z char_sum (s * b) *z char_sum (s * b) +z char_sum (s * (s * b)) *z char_sum (s * (s * b)).
    Lemma squares_total : \zsum_(b : F) squares b = (3 * total)%Z.
    Proof.
      rewrite /squares !zsum_add (reindex_mul s (fun b => char_sum b *z char_sum b) s0) (reindex_mul s (fun b => char_sum (s * b) *z char_sum (s * b)) s0) (reindex_mul s (fun b => char_sum b *z char_sum b) s0).
      exact: (aux_D total).
    Qed.
    Lemma three_total : \zsum_(b : F) (three_sum b *z three_sum b) = 0%Z.
    Proof.
      rewrite (eq_bigr (fun b => squares b +z 2%Z *z (char_sum b *z char_sum (s * b)) +z 2%Z *z (char_sum (s * b) *z char_sum (s * (s * b))) +z 2%Z *z (char_sum b *z char_sum (s * (s * b))))); last by move=> b _; rewrite /three_sum /squares; exact: aux_P.
      rewrite 3!zsum_add !zsum_scale squares_total (reindex_mul s (fun b => char_sum b *z char_sum (s * b)) s0) cross_eq cross_eq2 total_eq. exact: (aux_PT zq).
    Qed.
    Lemma three_zero b : three_sum b = 0%Z.
    Proof. have := zsum_zero _ _ (fun b => Z.square_nonneg (three_sum b)) three_total b. lia. Qed.
    Lemma squares_gk k : squares (g ^+ k) = squares 1.
    Proof.
      elim: k => [|k <-]; first by rewrite expr0. rewrite exprS. move: (g ^+ k) => b. rewrite /squares.
      have A i j (c : F) : g ^+ i * (g ^+ j * c) = g ^+ (i + j) * c by rewrite mulrA -exprD.
      have B i (c : F) : g ^+ i * (g * c) = g ^+ (i + 1) * c by rewrite addn1 exprSr mulrA.
      have E1 : char_sum (s * (g * b)) = Z.opp (char_sum b) by rewrite -S_g3 mulrA -exprSr.
      have E2 : char_sum (s * (s * (g * b))) = Z.opp (char_sum (s * b)). { rewrite -S_g3. congr char_sum. by rewrite /s ?B ?A. }
      have E3 : char_sum (s * (s * b)) = Z.opp (char_sum (g * b)). { rewrite -S_g3. congr char_sum. by rewrite /s ?B ?A. }
      rewrite E1 E2 E3. exact: aux_Dg.
    Qed.
    Lemma squares_eq b : b != 0 -> squares b = (6 * zq)%Z.
    Proof.
      move=> Hb. have [k ->] := g_all b Hb. rewrite squares_gk. have := squares_total.
      rewrite (eq_bigr (fun b => squares 1 +z (if b == 0 then Z.opp (squares 1) else 0%Z))).
      - rewrite zsum_add fsum_const zsum_pred1 total_eq => E. apply: (aux_Deq zq (squares 1) _ E). have := q_gt1. move/ltP. lia.
      - move=> c _. have [->|Hc] := eqVneq c 0; last by have [j ->] := g_all c Hc; rewrite squares_gk Z.add_0_r.
        by rewrite /squares !mulr0 S_0 Z.add_opp_diag_r.
    Qed.
    Lemma norm_form b : b != 0 -> exists d, (char_sum b * char_sum b + 3 * d * d = 4 * zq)%Z.
    Proof. move=> Hb. have := three_zero b. have := squares_eq b Hb. rewrite /three_sum /squares. exact: aux_norm. Qed.
  End Generator.
  Lemma cubic_sum b : b != 0 -> exists d, (char_sum b * char_sum b + 3 * d * d = 4 * zq)%Z.
  Proof. have [g [g0 g_all g_inj]] := generator. exact: (norm_form g). Qed.
  (** the number of solutions *)
  Lemma root_count z : \zsum_(y : F) (if y * y == z then 1%Z else 0%Z) = (1 + chi z)%Z.
  Proof.
    have [g [g0 g_all g_inj]] := generator. have [->|Hz] := eqVneq z 0.
    { rewrite chi0 (eq_bigr (fun y => if y == 0 then 1%Z else 0%Z)); first exact: zsum_pred1. move=> y _. by rewrite mulf_eq0 orbb. }
    rewrite /chi (negbTE Hz). case: ifP => [/existsP [y /eqP E]|N].
    - have y0 : y != 0 by apply: contraTneq Hz => Y; rewrite E Y expr0n /= eqxx.
      have two : y != - y.
      { apply/eqP => Y. have /eqP := subrr y. rewrite {2}Y opprK -mulr2n -mulr_natr mulf_eq0 (negbTE y0) /= => /eqP T.
        have M : -1 = 1 :> F by apply/eqP; rewrite -subr_eq0 -opprD oppr_eq0 -[1 + 1]/(2%:R) T.
        have : (g ^+ (q.-1 %/ 2)) ^+ 2 = 1.
        { rewrite -exprM divnK ?two_div //. apply: (mulIf g0). rewrite -exprSr mul1r prednK ?expf_card //. exact: ltnW q_gt1. }
        move/eqP. rewrite sqrf_eq1 M orbb => /eqP E2. have := g_inj (q.-1 %/ 2)%N 0%N E2. rewrite mod0n modn_small; last by rewrite ltn_Pdiv // -ltnS prednK ?q_gt1 // ltnW ?q_gt1.
        move=> E0. have := divnK two_div. rewrite E0 mul0n => E1. have := q_gt1. by rewrite -(prednK (ltnW q_gt1)) -E1. }
      rewrite (eq_bigr (fun v => (if v == y then 1%Z else 0%Z) +z (if v == - y then 1%Z else 0%Z))).
      + by rewrite zsum_add !zsum_pred1.
      + move=> v _. rewrite E -expr2 eqf_sqr. have [->|V] := eqVneq v y; last by case: eqP. by rewrite (negbTE two).
    - rewrite big1 // => y _. case: eqP => // E. case/negP: (negbT N). apply/existsP. exists y. by rewrite -E expr2.
  Qed.
  Lemma solutions b : \zsum_(z : (F * F)%type) (if z.2 * z.2 == z.1 ^+ 3 + b then 1%Z else 0%Z) = (zq + char_sum b)%Z.
  Proof.
    rewrite -(zsum_prod _ _ (fun x y => if y * y == x ^+ 3 + b then 1%Z else 0%Z)) (eq_bigr (fun x => 1%Z +z chi (x ^+ 3 + b))); last by move=> x _; rewrite root_count.
    rewrite zsum_add fsum_const Z.mul_1_r //.
  Qed.
End Count.
