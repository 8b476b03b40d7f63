(** Byte strings to curve points: the decoding agrees with the specification in HashCurveSpec.v. *)
From Coq Require Import Field.
From Verif Require Import Base Constants Group Field Curve BlsModel EncodingModel EncodingProofs HasherModel PointModel HashCurveModel HashCurveSpec.

(** ** numbers *)
Lemma number_le_val l : number l = le_val l. Proof. reflexivity. Qed.
Lemma number_app l l' : number (l ++ l') = number l + 256 ^ Z.of_nat (length l) * number l'.
Proof.
  induction l as [|b l IH]; [cbn [app number length]; change (256 ^ Z.of_nat 0) with 1; lia|].
  cbn [app number length]. rewrite IH, Nat2Z.inj_succ, Z.pow_succ_r by lia. ring.
Qed.
Lemma number_bound l : is_bytes l = true -> 0 <= number l < 256 ^ Z.of_nat (length l).
Proof.
  induction l as [|b l IH]; intros H; [cbn; lia|]. cbn [number length]. cbn [is_bytes forallb] in H.
  apply andb_true_iff in H. destruct H as [Hb H]. specialize (IH H). unfold is_byte in Hb.
  rewrite Nat2Z.inj_succ, Z.pow_succ_r by lia. lia.
Qed.
Lemma pow256 k : 0 <= k -> 256 ^ k = 2 ^ (8 * k).
Proof. intros H. change 256 with (2 ^ 8). rewrite <- Z.pow_mul_r; [reflexivity|lia|lia]. Qed.
Lemma testbit_high a b k j : 0 <= k -> 0 <= a < 2 ^ k -> 0 <= j -> Z.testbit (a + 2 ^ k * b) (k + j) = Z.testbit b j.
Proof.
  intros Hk Ha Hj. replace (k + j) with (j + k) by lia. rewrite <- (Z.shiftr_spec _ k) by lia. rewrite Z.shiftr_div_pow2 by lia.
  f_equal. rewrite Z.mul_comm, Z.div_add by lia. rewrite (Z.div_small a) by lia. lia.
Qed.
Lemma mod_high a b k j : 0 <= k -> 0 <= j -> 0 <= a < 2 ^ k -> (a + 2 ^ k * b) mod 2 ^ (k + j) = a + 2 ^ k * (b mod 2 ^ j).
Proof.
  intros Hk Hj Ha. rewrite Z.pow_add_r by lia.
  assert (0 < 2 ^ k) by lia. assert (0 < 2 ^ j) by (apply Z.pow_pos_nonneg; lia).
  rewrite Z.rem_mul_r by lia. f_equal.
  - rewrite Z.mul_comm, Z.mod_add by lia. apply Z.mod_small; lia.
  - f_equal. f_equal. rewrite Z.mul_comm, Z.div_add by lia. rewrite Z.div_small by lia. lia.
Qed.
Lemma is_bytes_app l l' : is_bytes (l ++ l') = is_bytes l && is_bytes l'.
Proof. apply forallb_app. Qed.

Lemma bytes_case (P : Z -> bool) : forallb P (map Z.of_nat (seq 0 256)) = true -> forall b, is_byte b = true -> P b = true.
Proof.
  intros H b Hb. unfold is_byte in Hb. rewrite forallb_forall in H. apply H.
  replace b with (Z.of_nat (Z.to_nat b)) by lia. apply in_map, in_seq. lia.
Qed.

(** ** flags *)
Lemma ysf_from_u8_bits b : ysf_from_u8 b =
  Some (if Z.testbit b 7 then PositiveY (Z.testbit b 6) else NegativeY (Z.testbit b 6)).
Proof.
  assert (T : forall i, 0 <= i -> (Z.land (Z.shiftr b i) 1 =? 1) = Z.testbit b i).
  { intros i Hi. change 1 with (Z.ones 1). rewrite Z.land_ones by lia. change (2 ^ 1) with 2.
    replace (Z.testbit b i) with (Z.testbit (Z.shiftr b i) 0) by (rewrite Z.shiftr_spec by lia; f_equal; lia).
    rewrite Z.bit0_odd, Zmod_odd. destruct (Z.odd (Z.shiftr b i)); reflexivity. }
  unfold ysf_from_u8. rewrite !T by lia. destruct (Z.testbit b 7); reflexivity.
Qed.
Lemma mask_bits b i : (i = 6 \/ i = 7) -> Z.testbit (Z.land b (flags_mask YSF_BIT_SIZE)) i = Z.testbit b i.
Proof. intros [-> | ->]; rewrite Z.land_spec; cbn -[Z.testbit]; change (Z.testbit 192 6) with true; change (Z.testbit 192 7) with true; apply andb_true_r. Qed.
Lemma ysf_round_trip f : ysf_from_u8 (ysf_u8_bitmask f) = Some f.
Proof. destruct f as [[|]|[|]]; reflexivity. Qed.

(** ** field elements *)
Lemma split_last (l : bytes) n : length l = S n -> exists l0 b, l = l0 ++ [b] /\ length l0 = n.
Proof.
  intros H. destruct (exists_last (l := l)) as [l0 [b E]]; [intros ->; discriminate|].
  exists l0, b. split; [exact E|]. rewrite E, app_length in H. cbn in H. lia.
Qed.
Lemma fq_from_eq s l : length l = 48%nat -> fq_from_random_bytes s l =
  let v := number l mod 2 ^ 377 in if v <? p then Some (fq_of v, Z.land (nth 47 l 0) (flags_mask s)) else None.
Proof.
  intros H. unfold fq_from_random_bytes. change (Z.of_nat MODULUS_BITS) with 377.
  assert (E : firstn 48 (firstn 49 (l ++ repeat 0 49)) = l).
  { rewrite firstn_firstn. change (Nat.min 48 49) with 48%nat. rewrite firstn_app, H.
    change (48 - 48)%nat with 0%nat. rewrite firstn_O, app_nil_r. apply firstn_all2. lia. }
  rewrite E. replace (nth 47 (firstn 49 (l ++ repeat 0 49)) 0) with (nth 47 l 0); [reflexivity|].
  rewrite firstn_app. rewrite app_nth1. 2:{ rewrite firstn_length. lia. }
  rewrite firstn_all2 by lia. reflexivity.
Qed.

(** ** get_point_from_x *)
Section GetPoint.
  Context (K : Type) (k0 k1 : K) (kadd kmul ksub : K -> K -> K) (kopp : K -> K) (kdiv : K -> K -> K) (kinv : K -> K).
  Context (keqb kltb : K -> K -> bool) (b : K) (sqrt : K -> option K).
  Hypothesis Kfield : field_theory k0 k1 kadd kmul ksub kopp kdiv kinv (@eq K).
  Hypothesis keqb_spec : forall x y, keqb x y = true <-> x = y.
  Hypothesis ltb_asym : forall x y, kltb x y = true -> kltb y x = false.
  Hypothesis ltb_total : forall x y, kltb x y = false -> kltb y x = false -> x = y.
  Hypothesis sqrt_ok : sqrt_spec kmul sqrt.
  Add Field KF2 : Kfield.

  Lemma sq_unique y y' : kmul y y = kmul y' y' -> y = y' \/ y = kopp y'.
  Proof.
    intros H. destruct (keqb y y') eqn:E; [left; apply keqb_spec; exact E|right].
    assert (Hd : ksub y y' <> k0).
    { intros Z. apply (k_sub_0 _ _ _ _ _ _ _ _ _ Kfield) in Z. apply keqb_spec in Z. congruence. }
    assert (H0 : kadd y y' = k0).
    { apply (k_integral _ _ _ _ _ _ _ _ _ Kfield (ksub y y')); [|exact Hd].
      transitivity (ksub (kmul y y) (kmul y' y')); [ring|rewrite H; ring]. }
    transitivity (ksub (kadd y y') y'); [ring|rewrite H0; ring].
  Qed.

  (** [greatest] selects the root that is not below its negation. *)
  Definition signed (greatest : bool) (y : K) : Prop :=
    if greatest then kltb y (kopp y) = false else kltb (kopp y) y = false.
  Lemma opp_opp y : kopp (kopp y) = y. Proof. ring. Qed.
  Lemma signed_opp g y : signed (negb g) (kopp y) <-> signed g y.
  Proof. destruct g; unfold signed; cbn [negb]; rewrite ?opp_opp; reflexivity. Qed.
  Lemma signed_unique g y y' : kmul y y = kmul y' y' -> signed g y -> signed g y' -> y = y'.
  Proof.
    intros H Hy Hy'. destruct (sq_unique _ _ H) as [|E]; [assumption|]. subst y.
    destruct g; unfold signed in *; rewrite ?opp_opp in Hy; [apply ltb_total|symmetry; apply ltb_total]; try assumption.
    all: try (symmetry; assumption).
  Qed.
  Lemma get_point_iff x g P : get_point_from_x kadd kmul kopp kltb b sqrt x g = Some P <->
    exists y, P = Some (x, y) /\ kmul y y = kadd (kmul x (kmul x x)) b /\ signed g y.
  Proof.
    unfold get_point_from_x. replace (kmul (kmul x x) x) with (kmul x (kmul x x)) by ring.
    pose proof (sqrt_ok (kadd (kmul x (kmul x x)) b)) as Hs. destruct (sqrt _) as [y|].
    - set (y1 := if xorb (kltb y (kopp y)) g then y else kopp y).
      assert (Hy1 : kmul y1 y1 = kadd (kmul x (kmul x x)) b).
      { rewrite <- Hs. unfold y1. destruct (xorb _ _); ring. }
      assert (Hg : signed g y1).
      { unfold y1, signed. destruct (kltb y (kopp y)) eqn:E, g; cbn [xorb]; rewrite ?opp_opp; auto. }
      split.
      + injection 1 as <-. exists y1. auto.
      + intros (y' & -> & Hy' & Hg'). do 3 f_equal. apply (signed_unique g); congruence.
    - split; [discriminate|]. intros (y & _ & Hy & _). destruct (Hs y Hy).
  Qed.
End GetPoint.

(** ** the two curves *)
Lemma q_ltb_asym x y : q_ltb x y = true -> q_ltb y x = false. Proof. unfold q_ltb. lia. Qed.
Lemma q_ltb_total x y : q_ltb x y = false -> q_ltb y x = false -> x = y.
Proof. unfold q_ltb. intros. apply fq_ext. lia. Qed.
Lemma q2_ltb_asym x y : q2_ltb x y = true -> q2_ltb y x = false.
Proof. unfold q2_ltb, q_ltb, qeqb. lia. Qed.
Lemma q2_ltb_total x y : q2_ltb x y = false -> q2_ltb y x = false -> x = y.
Proof.
  unfold q2_ltb, q_ltb, qeqb. destruct x as [x0 x1], y as [y0 y1]. cbn [fst snd]. intros.
  f_equal; apply fq_ext; lia.
Qed.
Lemma le1_ltb a b : le1 a b <-> q_ltb b a = false. Proof. unfold le1, q_ltb. lia. Qed.
Lemma le2_ltb a b : le2 a b <-> q2_ltb b a = false.
Proof.
  unfold le2, q2_ltb, q_ltb, qeqb. destruct a as [a0 a1], b as [b0 b1]. cbn [fst snd]. split.
  - intros [H|[-> H]]; lia.
  - intros H. destruct (Z.eq_dec (fqv a1) (fqv b1)) as [E|E]; [right|left; lia]. split; [apply fq_ext; exact E|lia].
Qed.
Lemma signed1 g y : signed fq qopp q_ltb g y <-> if g then le1 (qopp y) y else le1 y (qopp y).
Proof. unfold signed. destruct g; rewrite le1_ltb; reflexivity. Qed.
Lemma signed2 g y : signed fq2 q2opp q2_ltb g y <-> if g then le2 (q2opp y) y else le2 y (q2opp y).
Proof. unfold signed. destruct g; rewrite le2_ltb; reflexivity. Qed.

Lemma g1_get_iff sqrt x g P : sqrt_spec qmul sqrt -> g1_point_from_x sqrt x g = Some P <->
  exists y, P = Some (x, y) /\ qmul y y = qadd (qmul x (qmul x x)) q1 /\ if g then le1 (qopp y) y else le1 y (qopp y).
Proof.
  intros Hs. unfold g1_point_from_x.
  rewrite (get_point_iff fq q0 q1 qadd qmul qsub qopp qdiv qinv qeqb q_ltb G1_B sqrt fq_field qeqb_spec q_ltb_asym q_ltb_total Hs).
  setoid_rewrite signed1. reflexivity.
Qed.
Lemma g2_get_iff sqrt x g P : sqrt_spec q2mul sqrt -> g2_point_from_x sqrt x g = Some P <->
  exists y, P = Some (x, y) /\ q2mul y y = q2add (q2mul x (q2mul x x)) TWIST_B /\ if g then le2 (q2opp y) y else le2 y (q2opp y).
Proof.
  intros Hs. unfold g2_point_from_x.
  rewrite (get_point_iff fq2 q2_0 q2_1 q2add q2mul q2sub q2opp q2div q2inv q2eqb q2_ltb TWIST_B sqrt fq2_field q2eqb_spec q2_ltb_asym q2_ltb_total Hs).
  setoid_rewrite signed2. reflexivity.
Qed.

(** A 48-byte string: the low 376 bits and the last byte. *)
Record form48 (l l0 : bytes) (b : Z) : Prop := {
  f48_eq : l = l0 ++ [b];
  f48_len : length l0 = 47%nat;
  f48_low : 0 <= number l0 < 2 ^ 376;
  f48_byte : is_byte b = true
}.
Lemma form48_exists l : length l = 48%nat -> is_bytes l = true -> exists l0 b, form48 l l0 b.
Proof.
  intros H Hb. destruct (split_last l 47 H) as (l0 & b & -> & Hl). exists l0, b.
  rewrite is_bytes_app in Hb. apply andb_true_iff in Hb. destruct Hb as [H0 H1]. constructor; auto.
  - pose proof (number_bound l0 H0) as B. rewrite Hl in B. exact B.
  - cbn in H1. rewrite andb_true_r in H1. exact H1.
Qed.
Lemma form48_number l l0 b : form48 l l0 b -> number l = number l0 + 2 ^ 376 * b.
Proof. intros [-> H _ _]. rewrite number_app, H. change (256 ^ Z.of_nat 47) with (2 ^ 376). cbn [number]. lia. Qed.
Lemma form48_bit l l0 b j : form48 l l0 b -> 0 <= j -> Z.testbit (number l) (376 + j) = Z.testbit b j.
Proof. intros F Hj. rewrite (form48_number _ _ _ F). apply testbit_high; [lia|apply F|assumption]. Qed.
Lemma form48_mod l l0 b : form48 l l0 b -> number l mod 2 ^ 377 = number l0 + 2 ^ 376 * (b mod 2 ^ 1).
Proof. intros F. rewrite (form48_number _ _ _ F). apply (mod_high _ _ 376 1); [lia|lia|apply F]. Qed.
Lemma form48_last l l0 b : form48 l l0 b -> nth 47 l 0 = b.
Proof. intros [-> H _ _]. rewrite app_nth2, H by lia. reflexivity. Qed.

(** the flags that [ysf_from_u8] reads, as bits of the number *)
Lemma flags48 l l0 b : form48 l l0 b ->
  ysf_from_u8 (Z.land (nth 47 l 0) (flags_mask YSF_BIT_SIZE)) =
  Some (if Z.testbit (number l) 383 then PositiveY (Z.testbit (number l) 382) else NegativeY (Z.testbit (number l) 382)).
Proof.
  intros F. rewrite (form48_last _ _ _ F), ysf_from_u8_bits, !mask_bits by auto.
  change 383 with (376 + 7). change 382 with (376 + 6). rewrite !(form48_bit _ _ _ _ F) by lia. reflexivity.
Qed.
Lemma fqv_of_small v : 0 <= v < p -> fqv (fq_of v) = v.
Proof. intros H. rewrite fqv_of. apply Z.mod_small, H. Qed.

(** The flag after decoding, whatever the sign. *)
Lemma flags_cases (s i : bool) :
  let f := if s then PositiveY i else NegativeY i in ysf_is_infinity f = i /\ ysf_is_positive f = Some s.
Proof. destruct s, i; split; reflexivity. Qed.

Theorem g1_decode_iff sqrt l P : sqrt_spec qmul sqrt -> length l = 48%nat -> is_bytes l = true ->
  g1_from_random_bytes sqrt l = Some P <-> denotes_g1 383 (number l) P.
Proof.
  intros Hs Hl Hb. destruct (form48_exists l Hl Hb) as (l0 & b & F).
  unfold g1_from_random_bytes, from_random_bytes. rewrite (fq_from_eq _ _ Hl).
  unfold denotes_g1. set (v := number l mod 2 ^ 377). cbv zeta.
  assert (Hv : 0 <= v) by (apply Z.mod_pos_bound; lia).
  destruct (Z.ltb_spec v p) as [Hp|Hp]; [|split; [discriminate|intros [H _]; lia]].
  rewrite (flags48 _ _ _ F). set (s := Z.testbit (number l) 383). set (i := Z.testbit (number l) 382).
  destruct (flags_cases s i) as [-> ->].
  assert (Hx : qeqb (fq_of v) q0 = (v =? 0)).
  { unfold qeqb. rewrite fqv_of_small by lia. reflexivity. }
  rewrite Hx. destruct (Z.eqb_spec v 0) as [E|E]; [destruct i|]; cbn [andb].
  - split.
    + injection 1 as <-. auto.
    + destruct P as [[X Y]|]; [|reflexivity]. intros (_ & H & _). destruct H; auto.
  - fold (g1_point_from_x sqrt). rewrite (g1_get_iff sqrt _ s P Hs). split.
    + intros (y & -> & Hy & Hg). split; [lia|]. split; [intros [_ ?]; discriminate|]. split; [apply fqv_of_small; lia|auto].
    + destruct P as [[X Y]|]; [|intros (_ & _ & ?); discriminate]. intros (_ & _ & HX & HY & Hg). exists Y.
      replace (fq_of v) with X by (apply fq_ext; rewrite fqv_of_small by lia; exact HX). auto.
  - fold (g1_point_from_x sqrt). rewrite (g1_get_iff sqrt _ s P Hs). split.
    + intros (y & -> & Hy & Hg). split; [lia|]. split; [intros [? _]; contradiction|]. split; [apply fqv_of_small; lia|auto].
    + destruct P as [[X Y]|]; [|intros (_ & ? & _); contradiction]. intros (_ & _ & HX & HY & Hg). exists Y.
      replace (fq_of v) with X by (apply fq_ext; rewrite fqv_of_small by lia; exact HX). auto.
Qed.

(** 96 bytes *)
Lemma form96 l : length l = 96%nat -> is_bytes l = true ->
  let a := firstn 48 l in let d := skipn 48 l in
  l = a ++ d /\ length a = 48%nat /\ length d = 48%nat /\ is_bytes a = true /\ is_bytes d = true.
Proof.
  intros H Hb. cbv zeta. rewrite <- (firstn_skipn 48 l), is_bytes_app in Hb. apply andb_true_iff in Hb.
  rewrite firstn_skipn, firstn_length, skipn_length. repeat split; try tauto; lia.
Qed.
Lemma number96 l : length l = 96%nat -> is_bytes l = true ->
  number (firstn 48 l) mod 2 ^ 377 = number l mod 2 ^ 377 /\
  number (skipn 48 l) mod 2 ^ 377 = (number l / 2 ^ 384) mod 2 ^ 377 /\
  forall j, 0 <= j -> Z.testbit (number (skipn 48 l)) j = Z.testbit (number l) (384 + j).
Proof.
  intros H Hb. destruct (form96 l H Hb) as (E & H0 & H1 & B0 & B1).
  set (a := firstn 48 l) in *. set (d := skipn 48 l) in *.
  assert (EN : number l = number a + 2 ^ 384 * number d).
  { rewrite E, number_app, H0. reflexivity. }
  pose proof (number_bound a B0) as BA. rewrite H0 in BA. change (256 ^ Z.of_nat 48) with (2 ^ 384) in BA.
  split; [|split].
  - rewrite EN. replace (2 ^ 384 * number d) with (number d * 2 ^ 7 * 2 ^ 377) by (change (2 ^ 384) with (2 ^ 7 * 2 ^ 377); ring).
    rewrite Z.mod_add by lia. reflexivity.
  - rewrite EN. rewrite (Z.mul_comm (2 ^ 384)), Z.div_add by lia. rewrite (Z.div_small (number a)) by lia. reflexivity.
  - intros j Hj. rewrite EN, testbit_high by lia. reflexivity.
Qed.

Theorem g2_decode_iff sqrt l P : sqrt_spec q2mul sqrt -> length l = 96%nat -> is_bytes l = true ->
  g2_from_random_bytes sqrt l = Some P <-> denotes_g2 767 (number l) P.
Proof.
  intros Hs Hl Hb. destruct (form96 l Hl Hb) as (_ & H0 & H1 & B0 & B1).
  destruct (number96 l Hl Hb) as (N0 & N1 & N2).
  destruct (form48_exists _ H1 B1) as (l0 & b & F).
  unfold g2_from_random_bytes, from_random_bytes, fq2_from_random_bytes. rewrite Hl. change (Nat.div 96 2) with 48%nat.
  rewrite (fq_from_eq _ _ H0), (fq_from_eq _ _ H1), N0, N1.
  unfold denotes_g2. set (c0 := number l mod 2 ^ 377). set (c1 := (number l / 2 ^ 384) mod 2 ^ 377). cbv zeta.
  assert (Hv0 : 0 <= c0) by (apply Z.mod_pos_bound; lia). assert (Hv1 : 0 <= c1) by (apply Z.mod_pos_bound; lia).
  destruct (Z.ltb_spec c0 p) as [Hp0|Hp0]; [|split; [discriminate|intros [H _]; lia]].
  destruct (Z.ltb_spec c1 p) as [Hp1|Hp1]; [|split; [discriminate|intros (_ & H & _); lia]].
  rewrite (flags48 _ _ _ F), !N2 by lia. change (384 + 383) with 767. change (384 + 382) with 766.
  set (s := Z.testbit (number l) 767). set (i := Z.testbit (number l) 766).
  destruct (flags_cases s i) as [-> ->].
  assert (Hx : q2eqb (fq_of c0, fq_of c1) q2_0 = (c0 =? 0) && (c1 =? 0)).
  { unfold q2eqb, qeqb. cbn [fst snd q2_0]. rewrite !fqv_of_small by lia. reflexivity. }
  rewrite Hx. fold (g2_point_from_x sqrt).
  assert (G : g2_point_from_x sqrt (fq_of c0, fq_of c1) s = Some P <->
    exists X Y, P = Some (X, Y) /\ fqv (fst X) = c0 /\ fqv (snd X) = c1 /\
      q2mul Y Y = q2add (q2mul X (q2mul X X)) TWIST_B /\ if s then le2 (q2opp Y) Y else le2 Y (q2opp Y)).
  { rewrite (g2_get_iff sqrt _ s P Hs). split.
    - intros (y & -> & Hy). exists (fq_of c0, fq_of c1), y. cbn [fst snd]. rewrite !fqv_of_small by lia. auto.
    - intros (X & Y & -> & HX0 & HX1 & HY & Hg). exists Y.
      replace (fq_of c0, fq_of c1) with X; [auto|]. destruct X as [X0 X1]. cbn [fst snd] in *.
      f_equal; apply fq_ext; rewrite fqv_of_small by lia; assumption. }
  destruct (Z.eqb_spec c0 0) as [E0|E0]; cbn [andb].
  1: destruct (Z.eqb_spec c1 0) as [E1|E1]; [destruct i|]; cbn [andb].
  - split.
    + injection 1 as <-. auto.
    + destruct P as [[X Y]|]; [|reflexivity]. intros (_ & _ & H & _). destruct H; auto.
  - rewrite G. split.
    + intros (X & Y & -> & HX & HY). split; [lia|]. split; [lia|]. split; [intros (_ & _ & ?); discriminate|tauto].
    + destruct P as [[X Y]|]; [|intros (_ & _ & _ & _ & ?); discriminate]. intros (_ & _ & _ & H). exists X, Y. tauto.
  - rewrite G. split.
    + intros (X & Y & -> & HX & HY). split; [lia|]. split; [lia|]. tauto.
    + destruct P as [[X Y]|]; [|intros (_ & _ & _ & ? & _); contradiction]. intros (_ & _ & _ & H). exists X, Y. tauto.
  - rewrite G. split.
    + intros (X & Y & -> & HX & HY). split; [lia|]. split; [lia|]. tauto.
    + destruct P as [[X Y]|]; [|intros (_ & _ & ? & _); contradiction]. intros (_ & _ & _ & H). exists X, Y. tauto.
Qed.
