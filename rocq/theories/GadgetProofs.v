(** Proofs about y_to_bit.rs, bitmap.rs and bls.rs of crates/bls-gadgets. *)
From Verif Require Import Base Constants Group Field Curve EncodingModel Circuit CircuitFacts GadgetModel GadgetSpec.
From Coq Require Import Field.
Local Opaque p half.

Lemma fq_integral a b : qmul a b = q0 -> a = q0 \/ b = q0.
Proof.
  intros H. apply (f_equal fqv) in H. unfold qmul in H. rewrite fqv_of in H. change (fqv q0) with 0 in H.
  apply fp_integral in H. rewrite !fqv_mod in H. destruct H as [H|H]; [left|right]; apply fq_ext; exact H.
Qed.
Lemma q1_nz : q1 <> q0. Proof. exact (F_1_neq_0 fq_field). Qed.

(** ** is_eq_zero *)
Lemma is_eq_zero_holds x b : holds (is_eq_zero x) b <-> (b = true <-> value x = q0).
Proof.
  destruct x as [v|v]; cbn [is_eq_zero value].
  - cbn [holds]. rewrite <- qeqb_spec. destruct (qeqb v q0), b; intuition congruence.
  - rewrite holds_bind. setoid_rewrite holds_bind. setoid_rewrite holds_bind. setoid_rewrite holds_bind.
    setoid_rewrite holds_enforce. setoid_rewrite qeqb_spec. cbn [holds]. split.
    + intros (bit & _ & inv & _ & _ & H1 & _ & H2 & ->). split.
      * intros ->. cbn [bfq] in H2. rewrite <- H2. ring.
      * intros E. subst v. destruct b; [reflexivity|]. exfalso. apply q1_nz. cbn [bfq] in H1.
        replace q1 with (qsub q1 q0) by ring. rewrite <- H1. ring.
    + intros H. exists b. split; [apply holds_new_bool|].
      destruct (qeqb v q0) eqn:E.
      * apply qeqb_spec in E. pose proof (proj2 H E) as ->. subst v. exists q0. split; [apply holds_witness|].
        exists tt. split; [cbn [bfq]; ring|]. exists tt. split; [cbn [bfq]; ring|reflexivity].
      * assert (N : v <> q0). { intros X. apply qeqb_spec in X. congruence. }
        assert (b = false) as -> by (destruct b; [exfalso; apply N, H; reflexivity|reflexivity]).
        exists (qinv v). split; [apply holds_witness|].
        exists tt. split; [cbn [bfq]; field; exact N|]. exists tt. split; [cbn [bfq]; ring|reflexivity].
Qed.
Lemma is_eq_zero_prover x : prover (is_eq_zero x) = Val (qeqb (value x) q0, true).
Proof.
  destruct x as [v|v]; cbn [is_eq_zero value]; [reflexivity|].
  apply (prover_bind_val _ _ (qeqb v q0)); [apply prover_new_bool|].
  eapply prover_bind_val; [apply prover_witness|].
  apply (prover_bind_val _ _ tt).
  { rewrite prover_enforce. f_equal. f_equal. apply qeqb_spec. destruct (qeqb v q0) eqn:E; cbn [bfq]; [ring|].
    field. intros X. apply qeqb_spec in X. congruence. }
  apply (prover_bind_val _ _ tt); [|reflexivity].
  rewrite prover_enforce. f_equal. f_equal. apply qeqb_spec. destruct (qeqb v q0) eqn:E; cbn [bfq]; [|ring].
  apply qeqb_spec in E. subst v. ring.
Qed.

(** ** normalize *)
Lemma halfq_val : fqv halfq = half.
Proof. unfold halfq. rewrite fqv_of. apply Z.mod_small. pose proof half_val. pose proof half_pos. lia. Qed.
Lemma qsub_half v : fqv (qsub v halfq) = if fqv v <? half then fqv v - half + p else fqv v - half.
Proof.
  unfold qsub. rewrite fqv_of, halfq_val. pose proof (fqv_range v). pose proof half_val. pose proof half_pos.
  destruct (Z.ltb_spec (fqv v) half); symmetry; [apply Z.mod_unique with (-1)|apply Z.mod_unique with 0]; lia.
Qed.
Lemma adjust v (b : bool) : qmul q1 (qadd v (qmul (bfq b) (qopp halfq))) = if b then qsub v halfq else v.
Proof. destruct b; cbn [bfq]; ring. Qed.
Lemma normalize_holds v b : holds (normalize (Var v)) b <-> if b then half <= fqv v else fqv v <= half.
Proof.
  cbn [normalize].
  rewrite holds_bind. setoid_rewrite holds_bind. setoid_rewrite holds_bind. setoid_rewrite holds_bind.
  unfold enforce_le_half. setoid_rewrite holds_enforce. setoid_rewrite qeqb_spec. setoid_rewrite adjust. cbn [holds].
  pose proof (fqv_range v). pose proof half_val. pose proof half_pos. pose proof (qsub_half v) as Q. split.
  - intros (bit & _ & a & _ & _ & Ha & _ & Hl & ->). subst a. destruct b; [|lia]. rewrite Q in Hl.
    destruct (Z.ltb_spec (fqv v) half); lia.
  - intros Hb. exists b. split; [apply holds_new_bool|]. exists (if b then qsub v halfq else v). split; [apply holds_witness|].
    exists tt. split; [reflexivity|]. exists tt. split; [|reflexivity]. destruct b; [rewrite Q|lia].
    destruct (Z.ltb_spec (fqv v) half); lia.
Qed.
Lemma normalize_prover v : prover (normalize (Var v)) = Val (half <? fqv v, true).
Proof.
  cbn [normalize]. apply (prover_bind_val _ _ (half <? fqv v)); [apply prover_new_bool|].
  eapply prover_bind_val; [apply prover_witness|].
  apply (prover_bind_val _ _ tt).
  { rewrite prover_enforce. f_equal. f_equal. apply qeqb_spec. apply adjust. }
  apply (prover_bind_val _ _ tt); [|reflexivity]. unfold enforce_le_half.
  rewrite prover_enforce. f_equal. f_equal. pose proof (fqv_range v). pose proof half_val. pose proof (qsub_half v) as Q.
  destruct (Z.ltb_spec half (fqv v)); [|lia]. rewrite Q. destruct (Z.ltb_spec (fqv v) half); lia.
Qed.
Lemma normalize_const v b : holds (normalize (Constant v)) b <-> (b = true <-> half < fqv v).
Proof. cbn. destruct (Z.ltb_spec half (fqv v)), b; intuition (try congruence; lia). Qed.

(** ** y_to_bit *)
Lemma qopp_val v : fqv (qopp v) = if fqv v =? 0 then 0 else p - fqv v.
Proof.
  unfold qopp. rewrite fqv_of. pose proof (fqv_range v). destruct (Z.eqb_spec (fqv v) 0) as [->|N]; [reflexivity|].
  symmetry. apply Z.mod_unique with (-1); lia.
Qed.
Lemma larger1_half y : larger1 y <-> half < fqv y.
Proof.
  unfold larger1. rewrite qopp_val. pose proof (fqv_range y). pose proof half_val. pose proof half_pos.
  destruct (Z.eqb_spec (fqv y) 0); lia.
Qed.
Lemma larger2_half y : larger2 y <-> is_over_half y = true.
Proof.
  destruct y as [c0 c1]. unfold larger2, is_over_half, q2opp. cbn [fst snd]. rewrite !qopp_val.
  pose proof (fqv_range c0). pose proof (fqv_range c1). pose proof half_val. pose proof half_pos.
  destruct (Z.eqb_spec (fqv c0) 0), (Z.eqb_spec (fqv c1) 0), (Z.ltb_spec half (fqv c0)), (Z.ltb_spec half (fqv c1)); cbn; intuition (try congruence; try lia).
Qed.
Lemma g1_y_to_bit_holds y b : holds (g1_y_to_bit y) b <-> (b = true <-> larger1 y) \/ midpoint y.
Proof.
  unfold g1_y_to_bit. rewrite normalize_holds, larger1_half. unfold midpoint.
  destruct b, (Z.lt_trichotomy half (fqv y)) as [H|[H|H]]; (split; [intros X|intros [X|X]]);
    try lia; try (right; lia); try (left; split; [discriminate|lia]); try (left; split; [lia|reflexivity]);
    try (apply X in H; discriminate); try (assert (half < fqv y) by (apply X; reflexivity); lia).
Qed.
Lemma g1_y_to_bit_prover y : exists b, prover (g1_y_to_bit y) = Val (b, true) /\ (b = true <-> larger1 y).
Proof. exists (half <? fqv y). split; [apply normalize_prover|]. rewrite larger1_half. apply Z.ltb_lt. Qed.

Lemma sign_constraint (s a c : bool) :
  qmul (qsub q1 (bfq a)) (bfq c) = qsub (bfq s) (bfq a) <-> s = a || c.
Proof.
  destruct s, a, c; cbn [bfq orb]; split; intros H; try reflexivity; try discriminate; try ring; exfalso;
    apply (f_equal fqv) in H; vm_compute in H; discriminate.
Qed.
Lemma g2_y_to_bit_holds (y : fq2) b : holds (g2_y_to_bit y) b <->
  (b = true <-> larger2 y) \/ midpoint (snd y) \/ (snd y = q0 /\ midpoint (fst y)).
Proof.
  rewrite larger2_half. destruct y as [c0 c1]. cbn [g2_y_to_bit fst snd].
  unfold is_over_half, midpoint. cbn [fst snd]. pose proof half_pos as Hh.
  assert (Z0 : c1 = q0 <-> fqv c1 = 0). { split; [intros ->; reflexivity|intros E; apply fq_ext; exact E]. }
  rewrite Z0. pose proof (fqv_range c0) as R0. pose proof (fqv_range c1) as R1.
  assert (build : forall s b0 b1 bz : bool, (if b0 then half <= fqv c0 else fqv c0 <= half) ->
    (if b1 then half <= fqv c1 else fqv c1 <= half) -> (bz = true <-> fqv c1 = 0) -> s = b1 || bz && b0 ->
    holds (cbind (new_bool (Val ((half <? fqv c1) || (qeqb c1 q0 && (half <? fqv c0))))) (fun y_bit =>
      cbind (normalize (Var c0)) (fun y_c0_bit => cbind (normalize (Var c1)) (fun y_c1_bit =>
      cbind (is_eq_zero (Var c1)) (fun y_eq_bit => let bc := y_eq_bit && y_c0_bit in
      cbind (enforce (qeqb (qmul (qsub q1 (bfq y_c1_bit)) (bfq bc)) (qsub (bfq y_bit) (bfq y_c1_bit)))) (fun _ => Ret y_bit)))))) s).
  { intros s b0 b1 bz H0' H1' Hz Hs. apply holds_bind. exists s. split; [apply holds_new_bool|].
    apply holds_bind. exists b0. split; [apply normalize_holds, H0'|]. apply holds_bind. exists b1. split; [apply normalize_holds, H1'|].
    apply holds_bind. exists bz. split; [apply is_eq_zero_holds; cbn [value]; rewrite Z0; exact Hz|]. apply holds_bind. exists tt.
    split; [|reflexivity]. apply holds_enforce, qeqb_spec, sign_constraint, Hs. }
  split.
  - intros HH. clear build. apply holds_bind in HH as (s & _ & HH). apply holds_bind in HH as (b0 & H0 & HH).
    apply holds_bind in HH as (b1 & H1 & HH). apply holds_bind in HH as (bz & Hz & HH). apply holds_bind in HH as ([] & Hs & HH).
    cbn [holds] in HH. subst s. apply holds_enforce, qeqb_spec, sign_constraint in Hs. subst b.
    apply normalize_holds in H0, H1. apply is_eq_zero_holds in Hz. cbn [value] in Hz. rewrite Z0 in Hz.
    destruct (Z.eqb_spec (fqv c1) half) as [E|N]; [auto|].
    destruct (Z.ltb_spec half (fqv c1)) as [L|L].
    + left. destruct b1; [|lia]. cbn. tauto.
    + destruct b1; [lia|]. cbn [orb]. destruct bz.
      * assert (fqv c1 = 0) as -> by tauto. rewrite Z.eqb_refl. destruct (Z.eqb_spec (fqv c0) half) as [E|N0]; [auto|].
        left. destruct (Z.ltb_spec half (fqv c0)); destruct b0; cbn; try lia; tauto.
      * assert (fqv c1 <> 0) by (intros X; apply Hz in X; discriminate).
        destruct (Z.eqb_spec (fqv c1) 0); [lia|]. left. cbn. tauto.
  - intros HH. destruct HH as [H2|[H2|[H2 H3]]].
    + apply (build b (half <? fqv c0) (half <? fqv c1) (fqv c1 =? 0)).
      * destruct (Z.ltb_spec half (fqv c0)); lia.
      * destruct (Z.ltb_spec half (fqv c1)); lia.
      * apply Z.eqb_eq.
      * destruct b, ((half <? fqv c1) || (fqv c1 =? 0) && (half <? fqv c0)); try reflexivity; intuition congruence.
    + apply (build b (half <? fqv c0) b false).
      * destruct (Z.ltb_spec half (fqv c0)); lia.
      * destruct b; lia.
      * split; [discriminate|lia].
      * destruct b; reflexivity.
    + apply (build b b false true); [destruct b; lia|lia|tauto|destruct b; reflexivity].
Qed.
Lemma g2_y_to_bit_prover (y : fq2) : prover (g2_y_to_bit y) = Val (is_over_half y, true).
Proof.
  destruct y as [c0 c1]. cbn [g2_y_to_bit].
  apply (prover_bind_val _ _ (is_over_half (c0, c1))). { apply prover_new_bool. }
  apply (prover_bind_val _ _ (half <? fqv c0)); [apply normalize_prover|].
  apply (prover_bind_val _ _ (half <? fqv c1)); [apply normalize_prover|].
  apply (prover_bind_val _ _ (qeqb c1 q0)); [apply is_eq_zero_prover|].
  apply (prover_bind_val _ _ tt); [|reflexivity].
  rewrite prover_enforce. f_equal. f_equal. apply qeqb_spec, sign_constraint. reflexivity.
Qed.

(** ** Bitmap *)
Lemma positions_cons v b l : positions v (b :: l) = (if Bool.eqb b v then 1 else 0) + positions v l.
Proof.
  unfold positions. cbn [count_occ]. destruct (bool_dec b v) as [->|N].
  - rewrite eqb_reflx. lia.
  - destruct (Bool.eqb b v) eqn:E; [apply eqb_prop in E; congruence|lia].
Qed.
Lemma positions_range v l : 0 <= positions v l <= Z.of_nat (length l).
Proof. unfold positions. pose proof (count_occ_bound bool_dec v l). lia. Qed.
Lemma lc_gen (v : bool) (bits : list bool) (lc : fq) : fold_left (fun (lc : fq) bit => let lc := if v then lc else qadd lc q1 in
      qadd lc (qmul (bfq bit) (if v then q1 else qopp q1))) bits lc = qadd lc (fq_of (positions v bits)).
Proof.
  revert lc. induction bits as [|b l IH]; intros lc.
  - cbn [fold_left]. change (fq_of (positions v [])) with q0. ring.
  - cbn [fold_left]. rewrite IH, positions_cons. clear IH.
    assert (A : fq_of ((if Bool.eqb b v then 1 else 0) + positions v l) = qadd (bfq (Bool.eqb b v)) (fq_of (positions v l))).
    { apply fq_ext. unfold qadd. rewrite !fqv_of, bfq_val, Zplus_mod_idemp_r. reflexivity. }
    rewrite A. destruct b, v; cbn [Bool.eqb bfq]; ring.
Qed.
Lemma lc_count v bits : occurrences_lc bits v = fq_of (positions v bits).
Proof. unfold occurrences_lc. rewrite lc_gen. ring. Qed.

Lemma cmp_le_holds x y u : holds (enforce_cmp_le x y) u <-> fqv x <= fqv y < half.
Proof.
  unfold enforce_cmp_le, enforce_le_half. rewrite holds_bind. setoid_rewrite holds_bind. setoid_rewrite holds_enforce.
  pose proof (fqv_range x) as Hx. pose proof (fqv_range y) as Hy. pose proof half_val as Hp. pose proof half_pos as Hh.
  assert (R : fqv (qadd y q1) = if fqv y =? p - 1 then 0 else fqv y + 1).
  { unfold qadd. rewrite fqv_of. change (fqv q1) with (fqv (bfq true)). rewrite bfq_val.
    destruct (Z.eqb_spec (fqv y) (p - 1)) as [->|N]; [replace (p - 1 + 1) with p by lia; apply Z_mod_same_full|apply Z.mod_small; lia]. }
  assert (D : forall a b, fqv a <= half -> fqv b <= half ->
     Z.testbit (fqv (qadd (qsub a b) (qsub a b))) 0 = (fqv a <? fqv b)).
  { clear. intros a b Ha Hb. pose proof (fqv_range a). pose proof (fqv_range b). pose proof half_val.
    assert (E : fqv (qadd (qsub a b) (qsub a b)) = if fqv a <? fqv b then 2 * (fqv a - fqv b) + p else 2 * (fqv a - fqv b)).
    { unfold qadd, qsub. rewrite !fqv_of, <- Zplus_mod.
      destruct (Z.ltb_spec (fqv a) (fqv b)); symmetry; [apply Z.mod_unique with (-1)|apply Z.mod_unique with 0]; lia. }
    rewrite E, Z.bit0_odd. destruct (fqv a <? fqv b).
    - rewrite Z.odd_add, Z.odd_mul, H1. rewrite Z.odd_add, Z.odd_mul. reflexivity.
    - rewrite Z.odd_mul. reflexivity. }
  split.
  - intros (_ & H1 & _ & H2 & H3). rewrite D in H3 by lia. rewrite R in H2, H3.
    destruct (Z.eqb_spec (fqv y) (p - 1)); lia.
  - intros H. exists tt. split; [lia|]. exists tt. rewrite R in *. destruct (Z.eqb_spec (fqv y) (p - 1)); [lia|]. split; [lia|].
    rewrite D by (try rewrite R; try destruct (Z.eqb_spec (fqv y) (p - 1)); lia). rewrite R. destruct (Z.eqb_spec (fqv y) (p - 1)); lia.
Qed.
Lemma cmp_le_prover x y : prover (enforce_cmp_le x y) = Val (tt, (fqv x <=? fqv y) && (fqv y <? half)).
Proof.
  pose proof (cmp_le_holds x y tt) as H.
  assert (E : exists s, prover (enforce_cmp_le x y) = Val (tt, s) /\ (s = true <-> holds (enforce_cmp_le x y) tt)).
  { unfold enforce_cmp_le, enforce_le_half. rewrite !prover_bind, !prover_enforce. cbn [smap]. eexists. split; [reflexivity|].
    rewrite holds_bind. setoid_rewrite holds_bind. setoid_rewrite holds_enforce. rewrite !andb_true_iff. split.
    - intros (A & B & C). exists tt. split; [exact A|]. exists tt. split; assumption.
    - intros ([] & A & [] & B & C). auto. }
  destruct E as (s & -> & E). f_equal. f_equal. rewrite H in E. destruct s.
  - symmetry. apply andb_true_iff. rewrite Z.leb_le, Z.ltb_lt. apply E. reflexivity.
  - symmetry. apply andb_false_iff. rewrite Z.leb_gt, Z.ltb_ge.
    destruct (Z.leb_spec (fqv x) (fqv y)), (Z.ltb_spec (fqv y) half); lia.
Qed.

Lemma bitmap_holds debug bits m v : Z.of_nat (length bits) < p ->
  holds (enforce_maximum_occurrences_in_bitmap debug bits m v) tt <-> bits <> [] /\ positions v bits <= fqv m < half.
Proof.
  intros L. pose proof (positions_range v bits) as R.
  assert (E : fqv (fq_of (positions v bits)) = positions v bits) by (rewrite fqv_of; apply Z.mod_small; lia).
  destruct bits as [|b bits]. { cbn [enforce_maximum_occurrences_in_bitmap holds]. unfold fails. cbn [holds]. tauto. }
  remember (b :: bits) as bs eqn:Eb.
  assert (U : forall u, holds (enforce_maximum_occurrences_in_bitmap debug bs m v) u <->
     exists occ, fqv occ <= fqv m < half /\ fq_of (positions v bs) = occ).
  { intros u. rewrite Eb at 1. cbn [enforce_maximum_occurrences_in_bitmap]. rewrite <- Eb.
    rewrite holds_bind. setoid_rewrite holds_bind. setoid_rewrite cmp_le_holds. setoid_rewrite holds_enforce. setoid_rewrite qeqb_spec.
    rewrite lc_count. replace (qmul (fq_of (positions v bs)) q1) with (fq_of (positions v bs)) by ring. split.
    - intros (occ & _ & _ & H & H'). eauto.
    - intros (occ & H & H'). exists occ. split; [apply holds_witness|]. exists tt. auto. }
  rewrite U. split.
  - intros (occ & H & <-). rewrite E in H. split; [subst; discriminate|exact H].
  - intros [_ H]. exists (fq_of (positions v bs)). rewrite E. auto.
Qed.

Lemma occurrences_gen (debug v : bool) bits n : 0 <= n < 256 -> n + positions v bits < 256 ->
  fold_left (fun acc bit => match acc with
    | Val n => let n' := n + (if Bool.eqb bit v then 1 else 0) in
               if n' <? 256 then Val n' else if debug then Panics else Val (n' mod 256)
    | stop => stop end) bits (Val n) = Val (n + positions v bits).
Proof.
  revert n. induction bits as [|b l IH]; intros n Hn H.
  - cbn [fold_left]. f_equal. unfold positions. cbn. lia.
  - cbn [fold_left]. rewrite positions_cons in *. cbv zeta. pose proof (positions_range v l).
    destruct (Z.ltb_spec (n + (if Bool.eqb b v then 1 else 0)) 256) as [E|E]; [|lia].
    rewrite IH; [f_equal; lia|destruct (Bool.eqb b v); lia|lia].
Qed.
Lemma occurrences_small debug v bits : positions v bits < 256 -> occurrences debug bits v = Val (positions v bits).
Proof. intros H. unfold occurrences. rewrite occurrences_gen by lia. f_equal. Qed.
Lemma occurrences_wrap v bits n : 0 <= n < 256 ->
  fold_left (fun acc bit => match acc with
    | Val n => let n' := n + (if Bool.eqb bit v then 1 else 0) in
               if n' <? 256 then Val n' else if false then Panics else Val (n' mod 256)
    | stop => stop end) bits (Val n) = Val ((n + positions v bits) mod 256).
Proof.
  revert n. induction bits as [|b l IH]; intros n Hn.
  - cbn [fold_left]. f_equal. unfold positions. cbn [count_occ]. rewrite Z.add_0_r. symmetry. apply Z.mod_small, Hn.
  - cbn [fold_left]. cbv zeta. rewrite positions_cons. set (d := if Bool.eqb b v then 1 else 0).
    destruct (Z.ltb_spec (n + d) 256) as [E|E].
    + rewrite IH by (subst d; destruct (Bool.eqb b v); lia). f_equal. f_equal. lia.
    + rewrite IH by (apply Z.mod_pos_bound; lia). f_equal. rewrite Zplus_mod_idemp_l. f_equal. lia.
Qed.
Lemma stopped debug v bits : fold_left (fun acc bit => match acc with
    | Val n => let n' := n + (if Bool.eqb bit v then 1 else 0) in
               if n' <? 256 then Val n' else if (debug : bool) then Panics else Val (n' mod 256)
    | stop => stop end) bits Panics = Panics.
Proof. induction bits as [|b l IH]; [reflexivity|exact IH]. Qed.
Lemma occurrences_debug v bits n : 0 <= n < 256 -> 256 <= n + positions v bits ->
  fold_left (fun acc bit => match acc with
    | Val n => let n' := n + (if Bool.eqb bit v then 1 else 0) in
               if n' <? 256 then Val n' else if true then Panics else Val (n' mod 256)
    | stop => stop end) bits (Val n) = Panics.
Proof.
  revert n. induction bits as [|b l IH]; intros n Hn H.
  - unfold positions in H. cbn in H. lia.
  - cbn [fold_left]. cbv zeta. rewrite positions_cons in H. set (d := if Bool.eqb b v then 1 else 0) in *.
    destruct (Z.ltb_spec (n + d) 256) as [E|E].
    + apply IH; [subst d; destruct (Bool.eqb b v); lia|lia].
    + apply (stopped true).
Qed.
Lemma bitmap_run debug bits m v : bits <> [] -> Z.of_nat (length bits) < p ->
  prover (enforce_maximum_occurrences_in_bitmap debug bits m v) =
  match occurrences debug bits v with
  | Val n => Val (tt, (fqv (fq_of n) <=? fqv m) && (fqv m <? half) && (positions v bits =? fqv (fq_of n)))
  | Fails e => Fails e | Panics => Panics end.
Proof.
  intros N L. pose proof (positions_range v bits) as R.
  assert (E : fqv (fq_of (positions v bits)) = positions v bits) by (rewrite fqv_of; apply Z.mod_small; lia).
  destruct bits as [|b bits]; [congruence|]. remember (b :: bits) as bs eqn:Eb.
  assert (U : prover (enforce_maximum_occurrences_in_bitmap debug bs m v) =
    prover (cbind (witness (smap fq_of (occurrences debug bs v))) (fun occ =>
      cbind (enforce_cmp_le occ m) (fun _ => enforce (qeqb (qmul (occurrences_lc bs v) q1) occ))))) by (rewrite Eb; reflexivity).
  rewrite U, prover_bind. unfold witness. cbn [prover]. destruct (occurrences debug bs v) as [n|e|]; cbn [smap prover]; try reflexivity.
  rewrite prover_bind, cmp_le_prover, prover_enforce. cbn [smap].
  rewrite lc_count. replace (qmul (fq_of (positions v bs)) q1) with (fq_of (positions v bs)) by ring.
  unfold qeqb. rewrite E. f_equal.
Qed.
Lemma bitmap_prover debug bits m v : bits <> [] -> Z.of_nat (length bits) < p -> positions v bits < 256 ->
  prover (enforce_maximum_occurrences_in_bitmap debug bits m v) = Val (tt, (positions v bits <=? fqv m) && (fqv m <? half)).
Proof.
  intros N L H. rewrite bitmap_run by assumption. rewrite occurrences_small by assumption. pose proof (positions_range v bits) as R.
  assert (E : fqv (fq_of (positions v bits)) = positions v bits) by (rewrite fqv_of; apply Z.mod_small; lia).
  rewrite E, Z.eqb_refl, andb_true_r. reflexivity.
Qed.
Lemma bitmap_overflow debug bits m v : Z.of_nat (length bits) < p -> 256 <= positions v bits ->
  prover (enforce_maximum_occurrences_in_bitmap debug bits m v) = if debug then Panics else Val (tt, false).
Proof.
  intros L H. assert (N : bits <> []) by (intros ->; cbn in H; lia).
  rewrite bitmap_run by assumption. unfold occurrences. pose proof (positions_range v bits) as R.
  pose proof half_val as Hp. destruct debug.
  - rewrite occurrences_debug by lia. reflexivity.
  - rewrite occurrences_wrap by lia. f_equal. f_equal. rewrite Z.add_0_l.
    pose proof (Z.mod_pos_bound (positions v bits) 256 ltac:(lia)).
    assert (B : 256 < p) by reflexivity. rewrite fqv_of, (Z.mod_small (positions v bits mod 256)) by lia.
    destruct (Z.eqb_spec (positions v bits) (positions v bits mod 256)); [lia|]. apply andb_false_r.
Qed.

(** ** Aggregated keys and the verification equation *)
Lemma sum_gsum {G : grp} (l : list G) : gsum l = sum l.
Proof. induction l as [|x l IH]; [reflexivity|]. rewrite gsum_cons, IH. reflexivity. Qed.
Lemma signers_total {K} (ks : list K) bs : length bs = length ks -> exists l, signers ks bs l.
Proof.
  revert bs. induction ks as [|k ks IH]; intros [|b bs]; cbn; intros H; try discriminate.
  - exists []. constructor.
  - destruct (IH bs) as [l Hl]; [lia|]. destruct b; [exists (k :: l)|exists l]; constructor; exact Hl.
Qed.
Lemma signers_length {K} (ks : list K) bs l : signers ks bs l -> length bs = length ks.
Proof. induction 1; cbn; lia. Qed.
Lemma signers_fun {K} (ks : list K) bs l l' : signers ks bs l -> signers ks bs l' -> l = l'.
Proof. intros H. revert l'. induction H; intros l' H'; inversion H'; subst; [reflexivity| |]; [f_equal|]; auto. Qed.

Section Bls.
  Context {E1 E2 GT : grp} (e : E1 -> E2 -> GT) (gen2 : E2) (debug : bool).
  Implicit Types (keys : list E2) (hashes : list E1).

  Lemma loop_holds keys bits padding acc l out : signers keys bits l ->
    holds (aggregate_loop (combine keys bits) padding acc) out <-> ~ In padding l /\ out = ga acc (sum l).
  Proof.
    intros H. revert acc. induction H as [|k ks bs l H IH|k ks bs l H IH]; intros acc; cbn [combine aggregate_loop].
    - cbn. rewrite ga_0_r. intuition congruence.
    - cbn [In sum fold_right]. rewrite andb_true_r. split.
      + intros X. apply holds_bind in X as ([] & N & X). apply holds_enforce, negb_true_iff, geqb_neq in N.
        apply IH in X. destruct X as [N' ->]. rewrite ga_assoc. split; [intros [Y|Y]; [congruence|contradiction]|reflexivity].
      + intros (N & ->). apply holds_bind. exists tt. split; [apply holds_enforce, negb_true_iff, geqb_neq; intros ->; apply N; left; reflexivity|].
        apply IH. rewrite ga_assoc. split; [intros Y; apply N; right; exact Y|reflexivity].
    - rewrite andb_false_r. split.
      + intros X. apply holds_bind in X as ([] & _ & X). apply IH in X. rewrite ga_0_r in X. exact X.
      + intros X. apply holds_bind. exists tt. split; [apply holds_enforce; reflexivity|]. apply IH. rewrite ga_0_r. exact X.
  Qed.
  Lemma aggregated_holds keys bits padding out :
    holds (enforce_aggregated_pubkeys keys bits padding) out <->
    exists l, signers keys bits l /\ ~ In padding l /\ out = sum l.
  Proof.
    unfold enforce_aggregated_pubkeys. destruct (Nat.eqb_spec (length bits) (length keys)) as [E|N].
    - destruct (signers_total keys bits E) as [l Hl]. rewrite (loop_holds _ _ _ _ _ _ Hl), ga_0_l. split.
      + intros H. exists l. tauto.
      + intros (l' & Hl' & H). rewrite <- (signers_fun _ _ _ _ Hl Hl') in H. exact H.
    - cbn. split; [tauto|]. intros (l & Hl & _). apply signers_length in Hl. contradiction.
  Qed.
  Lemma loop_prover keys bits padding acc l : signers keys bits l ->
    prover (aggregate_loop (combine keys bits) padding acc) = Val (ga acc (sum l), forallb (fun k => negb (geqb k padding)) l).
  Proof.
    intros H. revert acc. induction H as [|k ks bs l H IH|k ks bs l H IH]; intros acc; cbn [combine aggregate_loop].
    - cbn. rewrite ga_0_r. reflexivity.
    - rewrite prover_bind, prover_enforce, IH. cbn [smap forallb sum fold_right]. rewrite andb_true_r, ga_assoc. reflexivity.
    - rewrite prover_bind, prover_enforce, IH. cbn [smap]. rewrite andb_false_r, ga_0_r. reflexivity.
  Qed.
  Lemma all_not_in (padding : E2) (l : list E2) : forallb (fun k => negb (geqb k padding)) l = true <-> ~ In padding l.
  Proof.
    rewrite forallb_forall. split.
    - intros H I. apply H in I. rewrite geqb_refl in I. discriminate.
    - intros H x I. apply negb_true_iff, geqb_neq. intros ->. contradiction.
  Qed.
  Lemma aggregated_prover keys bits padding l : signers keys bits l -> ~ In padding l ->
    prover (enforce_aggregated_pubkeys keys bits padding) = Val (sum l, true).
  Proof.
    intros H N. unfold enforce_aggregated_pubkeys. rewrite (signers_length _ _ _ H), Nat.eqb_refl.
    rewrite (loop_prover _ _ _ _ _ H), ga_0_l. f_equal. f_equal. apply all_not_in, N.
  Qed.
  Lemma aggregated_panics keys bits padding : length bits <> length keys ->
    prover (enforce_aggregated_pubkeys keys bits padding) = Panics.
  Proof. intros H. apply Nat.eqb_neq in H. unfold enforce_aggregated_pubkeys. rewrite H. reflexivity. Qed.

  Lemma g2_nz (Q : E2) : negb (geqb Q gz) = true <-> Q <> gz.
  Proof. rewrite negb_true_iff. apply geqb_neq. Qed.
  Lemma prepare_g2_holds (Q Q' : E2) : holds (prepare_g2 Q) Q' <-> Q <> gz /\ Q' = Q.
  Proof. cbn. rewrite g2_nz. intuition. Qed.
  Lemma gen_neg_nz : gen2 <> gz -> gn gen2 <> gz.
  Proof. intros H X. apply H. rewrite <- (gn_gn gen2), X. apply gn_0. Qed.
  Lemma prepared_holds keys hashes sig u : gen2 <> gz ->
    holds (batch_verify_prepared e gen2 keys hashes sig) u <->
    ga (e sig (gn gen2)) (sum (map (fun '(P, Q) => e P Q) (combine hashes keys))) = gz.
  Proof.
    intros Hg. unfold batch_verify_prepared, prepare_signature_neg_generator. rewrite holds_bind.
    unfold enforce_bls_equation. setoid_rewrite holds_bind. split.
    - intros ([s g] & (s' & Hs & H) & H'). apply holds_bind in H as (g' & H & X). apply prepare_g2_holds in H. cbn in Hs, X.
      destruct H as [_ ->]. injection X as <- <-. subst s'. apply holds_enforce, geqb_spec in H'.
      cbn [combine map] in H'. rewrite gsum_cons, sum_gsum in H'. exact H'.
    - intros H. exists (sig, gn gen2). split.
      + exists sig. split; [reflexivity|]. apply holds_bind. exists (gn gen2). split; [|reflexivity].
        apply prepare_g2_holds. split; [apply gen_neg_nz, Hg|reflexivity].
      + apply holds_enforce, geqb_spec. cbn [combine map]. rewrite gsum_cons, sum_gsum. exact H.
  Qed.
  Lemma cmap_prepare_g1 hashes hs : holds (cmap (@prepare_g1 E1) hashes) hs <-> hs = hashes.
  Proof.
    rewrite holds_cmap. unfold prepare_g1. cbn [holds]. split.
    - induction 1; congruence.
    - intros ->. induction hashes; constructor; auto.
  Qed.
  Lemma cmap_prepare_g2 keys ks : holds (cmap (@prepare_g2 E2) keys) ks <-> ks = keys /\ ~ In gz keys.
  Proof.
    rewrite holds_cmap. split.
    - induction 1 as [|k k' l l' H H' IH]; [cbn; tauto|]. apply prepare_g2_holds in H. destruct H as [N ->]. destruct IH as [-> N'].
      cbn [In]. intuition.
    - intros [-> H]. induction keys as [|k l IH]; constructor.
      + apply prepare_g2_holds. cbn [In] in H. intuition.
      + apply IH. cbn [In] in H. intuition.
  Qed.
  Lemma batch_holds keys hashes sig u : gen2 <> gz ->
    holds (GadgetModel.batch_verify e gen2 keys hashes sig) u <->
    ~ In gz keys /\ ga (e sig (gn gen2)) (sum (map (fun '(P, Q) => e P Q) (combine hashes keys))) = gz.
  Proof.
    intros Hg. unfold GadgetModel.batch_verify. rewrite holds_bind. setoid_rewrite holds_bind.
    setoid_rewrite cmap_prepare_g1. setoid_rewrite cmap_prepare_g2. setoid_rewrite prepared_holds; [|exact Hg]. split.
    - intros (hs & -> & ks & (-> & N) & H). auto.
    - intros (N & H). exists hashes. split; [reflexivity|]. exists keys. auto.
  Qed.
  Lemma verify_holds keys bits H sig m padding u : gen2 <> gz -> Z.of_nat (length bits) < p ->
    holds (GadgetModel.verify e gen2 debug keys bits H sig m padding) u <->
    bits <> [] /\ positions false bits <= fqv m < half /\
    exists l, signers keys bits l /\ ~ In padding l /\ sum l <> gz /\ ga (e sig (gn gen2)) (e H (sum l)) = gz.
  Proof.
    intros Hg L. unfold GadgetModel.verify, enforce_bitmap. split.
    - intros X. apply holds_bind in X as ([h apk] & X & H1). apply holds_bind in X as ([] & Hb & H0). apply holds_bind in H1 as (k & Hk & H1).
      apply bitmap_holds in Hb; [|exact L]. destruct Hb as [Hn Hb]. split; [exact Hn|]. split; [exact Hb|].
      apply holds_bind in H0 as (a & Ha & X). cbn [holds] in X. injection X as <- <-.
      apply aggregated_holds in Ha. destruct Ha as (l & Hl & N & ->). exists l. split; [exact Hl|]. split; [exact N|].
      apply prepare_g2_holds in Hk. destruct Hk as [Nz ->]. split; [exact Nz|].
      apply holds_bind in H1 as (h & X & H1). cbn [prepare_g1 holds] in X. subst h.
      assert (B : holds (batch_verify_prepared e gen2 [sum l] [H] sig) u) by exact H1.
      apply prepared_holds in B; [|exact Hg]. cbn [combine map sum fold_right] in B. rewrite ga_0_r in B. exact B.
    - intros (Hn & Hb & l & Hl & N & Nz & Eq). apply holds_bind. exists (H, sum l). split.
      + apply holds_bind. exists tt. split; [apply bitmap_holds; auto|]. apply holds_bind. exists (sum l).
        split; [apply aggregated_holds; eauto|reflexivity].
      + apply holds_bind. exists (sum l). split; [apply prepare_g2_holds; auto|]. apply holds_bind. exists H. split; [reflexivity|].
        assert (B : holds (batch_verify_prepared e gen2 [sum l] [H] sig) u); [|exact B].
        apply prepared_holds; [exact Hg|]. cbn [combine map sum fold_right]. rewrite ga_0_r. exact Eq.
  Qed.
  Lemma prepared_prover keys hashes sig : gen2 <> gz ->
    prover (batch_verify_prepared e gen2 keys hashes sig) =
    Val (tt, geqb (ga (e sig (gn gen2)) (sum (map (fun '(P, Q) => e P Q) (combine hashes keys)))) gz).
  Proof.
    intros Hg. unfold batch_verify_prepared, prepare_signature_neg_generator, enforce_bls_equation, prepare_g1, prepare_g2.
    cbn [cbind]. apply gen_neg_nz, g2_nz in Hg. cbn [prover enforce cbind]. rewrite Hg. cbn [combine map smap].
    rewrite gsum_cons, sum_gsum, andb_true_r. reflexivity.
  Qed.
  Lemma batch_prover keys hashes sig : gen2 <> gz -> ~ In gz keys ->
    prover (GadgetModel.batch_verify e gen2 keys hashes sig) =
    Val (tt, geqb (ga (e sig (gn gen2)) (sum (map (fun '(P, Q) => e P Q) (combine hashes keys)))) gz).
  Proof.
    intros Hg N. unfold GadgetModel.batch_verify. rewrite !prover_bind.
    rewrite (prover_cmap _ (fun P => P)) by reflexivity. rewrite map_id. rewrite !prover_bind.
    rewrite (prover_cmap _ (fun P => P)).
    - rewrite map_id, prepared_prover by assumption. reflexivity.
    - intros Q I. unfold prepare_g2. rewrite prover_bind, prover_enforce. cbn [prover smap]. rewrite andb_true_r.
      assert (Q <> gz) as X by congruence. apply g2_nz in X. rewrite X. reflexivity.
  Qed.
  Lemma verify_prover keys bits H sig m padding l : gen2 <> gz -> Z.of_nat (length bits) < p ->
    bits <> [] -> positions false bits < 256 -> signers keys bits l -> ~ In padding l -> sum l <> gz ->
    prover (GadgetModel.verify e gen2 debug keys bits H sig m padding) =
    Val (tt, ((positions false bits <=? fqv m) && (fqv m <? half)) && geqb (ga (e sig (gn gen2)) (e H (sum l))) gz).
  Proof.
    intros Hg L Hn Hb Hl N Nz. unfold GadgetModel.verify, enforce_bitmap.
    rewrite prover_bind, prover_bind, bitmap_prover by assumption.
    rewrite prover_bind, (aggregated_prover _ _ _ _ Hl N). cbn [prover smap]. 
    rewrite prover_bind. unfold prepare_g2 at 1. apply g2_nz in Nz. cbn [cbind enforce prover smap]. rewrite Nz. cbn [andb smap].
    match goal with |- context [prover ?c] => change c with (batch_verify_prepared e gen2 [sum l] [H] sig) end.
    rewrite prepared_prover by assumption. cbn [smap combine map sum fold_right]. rewrite ga_0_r, !andb_true_r. reflexivity.
  Qed.
End Bls.
