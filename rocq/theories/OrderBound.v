(** Finite abelian groups ([grp]) through the finite groups of the mathcomp library: Lagrange's theorem, and prime powers that
    divide the order. *)
From Coq Require Import ZArith Znumtheory Lia.
From Verif Require Import Group.
From mathcomp Require Import ssreflect ssrfun ssrbool eqtype ssrnat seq choice fintype div prime bigop finset fingroup morphism perm action quotient gproduct cyclic pgroup sylow.
Local Open Scope Z_scope.
Delimit Scope nat_scope with N.

Section Finite.
  Context (G : grp) (F : finType) (c : G -> F) (d : F -> option G) (cd : pcancel c d).
  Lemma geqP : Equality.axiom (@geqb G).
  Proof. move=> x y. apply: (iffP idP); apply geqb_spec. Qed.
  Local Canonical G_eqType := Eval hnf in EqType G (EqMixin geqP).
  Local Canonical G_choiceType := Eval hnf in ChoiceType G (PcanChoiceMixin cd).
  Local Canonical G_countType := Eval hnf in CountType G (PcanCountMixin cd).
  Local Canonical G_finType := Eval hnf in FinType G (PcanFinMixin cd).
  Definition G_mixin := FinGroup.Mixin (ga_assoc G) (ga_0_l G) (gn_l G).
  Local Canonical G_base := Eval hnf in BaseFinGroupType G G_mixin.
  Local Canonical G_group := Eval hnf in FinGroupType (gn_l G).

  Lemma mulgE (P Q : G) : (P * Q)%g = ga P Q. Proof. by []. Qed.
  Lemma oneE : (1 : G)%g = gz. Proof. by []. Qed.
  Lemma expgE (P : G) n : (P ^+ n)%g = smul (Z.of_nat n) P.
  Proof. elim: n => [|n IH]; first by []. rewrite expgS IH mulgE Nat2Z.inj_succ -Z.add_1_r smul_succ. exact: ga_comm. Qed.
  Definition order_of : Z := Z.of_nat #|[set: G]|.
  Lemma order_pos : 0 < order_of.
  Proof. apply (proj1 (Nat2Z.inj_lt 0 _)). apply/ltP. exact: (cardG_gt0 [set: G]%G). Qed.
  Lemma order_kills (P : G) : smul order_of P = gz.
  Proof. rewrite /order_of -expgE. have := order_dvdG (in_setT P). rewrite order_dvdn => /eqP ->. by []. Qed.
  Lemma order_le (F2 : finType) (f : G -> F2) : injective f -> order_of <= Z.of_nat #|F2|.
  Proof. move=> Hf. apply (proj1 (Nat2Z.inj_le _ _)). apply/leP. rewrite cardsT. have := leq_card f Hf. by []. Qed.
  Lemma gmul_comm (P Q : G) : commute P Q. Proof. exact: ga_comm. Qed.
  Lemma abelG (A : {set G}) : abelian A.
  Proof. apply/centsP => P _ Q _. exact: gmul_comm. Qed.

  Lemma order_pfactor (l k : nat) (P : G) : prime.prime l -> (P ^+ (l ^ k.+1) = 1)%g -> (P ^+ (l ^ k) <> 1)%g -> #[P]%g = (l ^ k.+1)%N.
  Proof.
    move=> Hl H1 H0. have D : (#[P]%g %| l ^ k.+1)%N by rewrite order_dvdn H1.
    have [m Hm E] := dvdn_pfactor _ _ Hl D. have [Hlt|Hge] := ltnP m k.+1; last first.
    { rewrite E. have -> : m = k.+1 by apply/eqP; rewrite eqn_leq Hm Hge. by []. }
    case: H0. apply/eqP. rewrite -order_dvdn E. exact: dvdn_exp2l.
  Qed.
  Lemma cyclic_pow (l k : nat) (P Q : G) : prime.prime l -> (P ^+ (l ^ k.+1) = 1)%g -> (P ^+ (l ^ k) <> 1)%g ->
    (Q ^+ (l ^ k.+1) = 1)%g -> (Q ^+ (l ^ k) <> 1)%g -> (Q ^+ (l ^ k) \notin <[P ^+ (l ^ k)]>)%g -> (l ^ k.+1 * l ^ k.+1 %| #|[set: G]|)%N.
  Proof.
    move=> Hl P1 P0 Q1 Q0 Hn. have OP := order_pfactor _ _ _ Hl P1 P0. have OQ := order_pfactor _ _ _ Hl Q1 Q0.
    have lpos : (0 < l)%N by exact: prime_gt0.
    have OT : forall R : G, #[R]%g = (l ^ k.+1)%N -> #[(R ^+ (l ^ k))%g]%g = l.
    { move=> R OR. rewrite orderXdiv OR; last by rewrite dvdn_exp2l. by rewrite expnS mulnK // expn_gt0 lpos. }
    have TI : (<[P]> :&: <[Q]> = 1)%g.
    { apply/eqP. apply: contraT => Hne. have Hc : (l %| #|(<[P]> :&: <[Q]>)%g|)%N.
      { have pG : (l.-group (<[P]> :&: <[Q]>))%g.
        { apply: (pgroupS (subsetIl _ _)). rewrite /pgroup -orderE OP. by rewrite pnatX pnat_id. }
        have [_ H _] := pgroup_pdiv pG Hne. exact: H. }
      have [z Hz Oz] := Cauchy Hl Hc. move: Hz. rewrite inE => /andP [HzP HzQ].
      have EP : (<[z]> = <[P ^+ (l ^ k)]>)%g.
      { have := eq_subG_cyclic (cycle_cyclic P). move/(_ <[z]>%G <[P ^+ (l ^ k)]>%G). rewrite !cycle_subG HzP mem_cycle => /(_ isT isT) E.
        apply/eqP. rewrite E. by rewrite -!orderE Oz (OT P OP). }
      have EQ : (<[z]> = <[Q ^+ (l ^ k)]>)%g.
      { have := eq_subG_cyclic (cycle_cyclic Q). move/(_ <[z]>%G <[Q ^+ (l ^ k)]>%G). rewrite !cycle_subG HzQ mem_cycle => /(_ isT isT) E.
        apply/eqP. rewrite E. by rewrite -!orderE Oz (OT Q OQ). }
      move: Hn. by rewrite -EP EQ cycle_id. }
    have C := TI_cardMg TI. have J : (<[P]> * <[Q]> = <[P]> <*> <[Q]>)%g.
    { symmetry. apply: comm_joingE. apply: centC. exact: sub_abelian_cent2 (abelG [set: G]) (subsetT _) (subsetT _). }
    rewrite -[X in (X * _ %| _)%N]OP -[X in (_ * X %| _)%N]OQ !orderE -C J. apply: cardSg. exact: subsetT.
  Qed.

  (** *** an upper bound: the points killed by l are few *)
  Definition torsion (l : nat) : {set G} := [set P : G | P ^+ l == 1]%g.
  Lemma torsion_step (l k : nat) : (#|torsion (l ^ k.+1)| <= #|torsion (l ^ k)| * #|torsion l|)%N.
  Proof.
    pose s (Q : G) : G := odflt 1%g [pick R | R ^+ l == Q]%g.
    pose f (P : G) := (P ^+ l, P * (s (P ^+ l))^-1)%g.
    have sP : forall P : G, (s (P ^+ l) ^+ l = P ^+ l)%g.
    { move=> P. rewrite /s. case: pickP => [R /eqP //|H]. have := H P. by rewrite eqxx. }
    have inj : injective f.
    { move=> P Q [E1 E2]. rewrite E1 in E2. exact: mulIg E2. }
    rewrite -cardsX -(card_imset _ inj). apply: subset_leq_card. apply/subsetP => X /imsetP [P HP ->]. rewrite !inE /=. rewrite inE in HP.
    rewrite -expgM -expnS HP /=. rewrite expgMn; last exact: gmul_comm. by rewrite expgVn sP mulgV.
  Qed.
  Lemma torsion_bound (l k : nat) : (#|torsion (l ^ k)| <= #|torsion l| ^ k)%N.
  Proof.
    elim: k => [|k IH].
    - have -> : torsion (l ^ 0) = [set 1%g]; last by rewrite cards1. apply/setP => P. by rewrite !inE expn0 expg1.
    - apply: (leq_trans (torsion_step l k)). rewrite expnSr. by rewrite leq_mul2r IH orbT.
  Qed.
  Lemma sylow_bound (l k m : nat) : prime.prime l -> (forall P : G, P ^+ (l ^ k.+1) = 1 -> P ^+ (l ^ k) = 1)%g ->
    (l ^ m %| #|[set: G]|)%N -> (l ^ m <= #|torsion l| ^ k)%N.
  Proof.
    move=> Hl Hk Hd. have [S HS] := Sylow_exists l [set: G]%G. have HS' := card_Hall HS.
    have D : (l ^ m %| #|S|)%N by rewrite HS' p_part pfactor_dvdn // in Hd *; rewrite dvdn_exp2l.
    have down : forall (j : nat) (P : G), (P ^+ (l ^ (k + j)) = 1 -> P ^+ (l ^ k) = 1)%g.
    { elim=> [|j IH] P; first by rewrite addn0. move=> E. apply: IH. have -> : (l ^ (k + j) = l ^ j * l ^ k)%N by rewrite expnD mulnC.
      rewrite expgM. apply: Hk. by rewrite -expgM -expnD addnS -addSn addnC. }
    have sub : S \subset torsion (l ^ k).
    { apply/subsetP => P HP. rewrite inE. apply/eqP. apply: (down (logn l #|[set: G]|)). apply/eqP. rewrite -order_dvdn. apply: (dvdn_trans (order_dvdG HP)). rewrite HS' p_part. exact: dvdn_exp2l (leq_addl _ _). }
    apply: (leq_trans (dvdn_leq (cardG_gt0 S) D)). exact: leq_trans (subset_leq_card sub) (torsion_bound l k).
  Qed.
  (** *** in Z *)
  Lemma nat_pow (l k : Z) : 0 <= l -> 0 <= k -> Z.of_nat (Z.to_nat l ^ Z.to_nat k)%N = l ^ k.
  Proof.
    move=> Hl Hk. rewrite -{2}(Z2Nat.id k) //. elim: (Z.to_nat k) => [|n IH]; first by [].
    rewrite expnS. change muln with Nat.mul. rewrite Nat2Z.inj_mul IH Z2Nat.id // Nat2Z.inj_succ Z.pow_succ_r //. lia.
  Qed.
  Lemma prime_nat l : Znumtheory.prime l -> prime.prime (Z.to_nat l).
  Proof.
    move=> Hl. have Hl1 : 1 < l by case: Hl. apply/primeP. split; first by apply/ltP; lia.
    move=> m /dvdnP [n E]. have Em : l = Z.of_nat n * Z.of_nat m by rewrite -Nat2Z.inj_mul -[Nat.mul]/muln -E Z2Nat.id; lia.
    have D : (Z.of_nat m | l) by exists (Z.of_nat n). have := prime_divisors _ Hl _ D. move=> [X|[X|[X|X]]]; try lia.
    - have -> : m = 1%N by lia. by [].
    - have -> : m = Z.to_nat l by lia. by rewrite eqxx orbT.
  Qed.
  Lemma dvd_Z (a b : nat) : (a %| b)%N -> (Z.of_nat a | Z.of_nat b).
  Proof. move=> /dvdnP [n ->]. exists (Z.of_nat n). by rewrite -Nat2Z.inj_mul. Qed.
  Lemma power_divides l k (P : G) : Znumtheory.prime l -> 0 <= k -> smul (l ^ (k + 1)) P = gz -> smul (l ^ k) P <> gz -> (l ^ (k + 1) | order_of).
  Proof.
    move=> Hl Hk H1 H0. have Hl1 : 1 < l by case: Hl. have S : Z.to_nat (k + 1) = (Z.to_nat k).+1 by lia.
    have E1 : (P ^+ (Z.to_nat l ^ (Z.to_nat k).+1) = 1)%g by rewrite expgE -S nat_pow; [|lia|lia].
    have E0 : (P ^+ (Z.to_nat l ^ Z.to_nat k) <> 1)%g by rewrite expgE nat_pow; [|lia|lia].
    have O := order_pfactor _ _ _ (prime_nat _ Hl) E1 E0. rewrite -(nat_pow l (k + 1)) ?S; [|lia|lia]. rewrite -O. apply: dvd_Z. exact: order_dvdG (in_setT P).
  Qed.
  Lemma square_divides l k (P Q : G) : Znumtheory.prime l -> 0 <= k -> smul (l ^ (k + 1)) P = gz -> smul (l ^ k) P <> gz ->
    smul (l ^ (k + 1)) Q = gz -> (forall a, smul (l ^ k) Q <> smul a (smul (l ^ k) P)) -> (l ^ (k + 1) * l ^ (k + 1) | order_of).
  Proof.
    move=> Hl Hk P1 P0 Q1 N. have Hl1 : 1 < l by case: Hl. have S : Z.to_nat (k + 1) = (Z.to_nat k).+1 by lia.
    have Q0 : smul (l ^ k) Q <> gz by move=> Z; apply: (N 0); rewrite Z.
    have [A B] : (P ^+ (Z.to_nat l ^ (Z.to_nat k).+1) = 1)%g /\ (P ^+ (Z.to_nat l ^ Z.to_nat k) <> 1)%g.
    { split; [rewrite expgE -S nat_pow; [by []|lia|lia]|rewrite expgE nat_pow; [by []|lia|lia]]. }
    have [C D] : (Q ^+ (Z.to_nat l ^ (Z.to_nat k).+1) = 1)%g /\ (Q ^+ (Z.to_nat l ^ Z.to_nat k) <> 1)%g.
    { split; [rewrite expgE -S nat_pow; [by []|lia|lia]|rewrite expgE nat_pow; [by []|lia|lia]]. }
    have E : (Q ^+ (Z.to_nat l ^ Z.to_nat k) \notin <[P ^+ (Z.to_nat l ^ Z.to_nat k)]>)%g.
    { apply/negP => /cycleP [n]. rewrite !expgE nat_pow; [|lia|lia]. exact: N. }
    have R := cyclic_pow _ _ _ _ (prime_nat _ Hl) A B C D E. have := dvd_Z _ _ R. change muln with Nat.mul. by rewrite Nat2Z.inj_mul -S nat_pow; [|lia|lia].
  Qed.
  Lemma InP (T : eqType) (x : T) (l : seq T) : reflect (List.In x l) (x \in l).
  Proof.
    apply: (iffP idP).
    - elim: l => [//|y l IH]. rewrite inE => /orP [/eqP ->|H]; [by left|right; exact: IH].
    - elim: l => [//|y l IH] /=. case=> [->|H]; rewrite inE; [by rewrite eqxx|by rewrite IH ?orbT].
  Qed.
  Lemma uniq_nodup (T : eqType) (l : seq T) : uniq l -> List.NoDup l.
  Proof. elim: l => [_|x l IH] /=; first by constructor. move=> /andP [N U]. constructor; last exact: IH. move=> /InP. exact/negP. Qed.
  Lemma order_list : exists l : list G, List.NoDup l /\ (forall P, List.In P l) /\ Z.of_nat (length l) = order_of.
  Proof.
    exists (enum G_finType). split; first exact: uniq_nodup (enum_uniq _). split.
    - move=> P. apply/InP. exact: mem_enum.
    - rewrite /order_of cardsT cardE. by [].
  Qed.
  (** [l]: the points killed by the prime [a]. *)
  Lemma order_bound a k m (l : list G) : Znumtheory.prime a -> 0 <= k -> 0 <= m -> (forall P : G, smul (a ^ (k + 1)) P = gz -> smul (a ^ k) P = gz) ->
    (forall P : G, smul a P = gz -> List.In P l) -> (a ^ m | order_of) -> a ^ m <= Z.of_nat (length l) ^ k.
  Proof.
    move=> Ha Hk Hm H L D. have Ha1 : 1 < a by case: Ha. have S : Z.to_nat (k + 1) = (Z.to_nat k).+1 by lia.
    have H' : forall P : G, (P ^+ (Z.to_nat a ^ (Z.to_nat k).+1) = 1 -> P ^+ (Z.to_nat a ^ (Z.to_nat k)) = 1)%g.
    { move=> P. rewrite !expgE -S !nat_pow; try lia. exact: H. }
    have D' : (Z.to_nat a ^ Z.to_nat m %| #|[set: G]|)%N.
    { move: D => [q Hq]. have P := order_pos. have Ep : 0 < a ^ m by apply: Z.pow_pos_nonneg; lia. apply/dvdnP. exists (Z.to_nat q). apply: Nat2Z.inj. change muln with Nat.mul. rewrite Nat2Z.inj_mul nat_pow; try lia.
      rewrite Z2Nat.id; [exact: Hq|]. nia. }
    have B := sylow_bound _ _ _ (prime_nat _ Ha) H' D'. have C : (#|torsion (Z.to_nat a)| <= length l)%N.
    { rewrite cardE. apply: uniq_leq_size; first exact: enum_uniq. move=> P. rewrite mem_enum inE => /eqP E. apply/InP. apply: L. move: E. rewrite expgE Z2Nat.id //. lia. }
    have E : (Z.to_nat a ^ Z.to_nat m <= length l ^ Z.to_nat k)%N.
    { apply: (leq_trans B). case: (Z.to_nat k) => [//|n]. by rewrite leq_exp2r. }
    move: E => /leP /(proj1 (Nat2Z.inj_le _ _)). rewrite nat_pow; try lia. move=> E. apply: (Z.le_trans _ _ _ E). have X := nat_pow (Z.of_nat (length l)) k ltac:(lia) Hk. rewrite Nat2Z.id in X. rewrite -X. exact: Z.le_refl.
  Qed.
End Finite.
