(** Proofs of C65. *)
From Coq Require Import Permutation.
From Verif Require Import Base Constants Group Field Curve BitsModel BitsProofs EncodingModel EncodingSpec EncodingProofs Blake2 HasherModel PointModel
  HashCurveModel HashCurveSpec HashCurveProofs CodecSpec Circuit CircuitFacts GadgetModel GadgetSpec GadgetProofs
  HashGadgetModel HashGadgetSpec HashGadgetProofs HashGadgetNative EpochCircuitModel EpochSpec EpochCircuitSpec EpochProofs EpochCircuitProofs ProverModel ProverSpec ProverProofs OutcomeSpec.
Local Open Scope circ_scope.
Local Opaque p half.

(** The prover computes [x]; its assignment satisfies the constraints exactly if [P]. *)
Definition runs {A} (c : circ A) (x : A) (P : Prop) : Prop := exists s, prover c = Val (x, s) /\ (s = true <-> P).
Lemma runs_bind {A B} (c : circ A) (f : A -> circ B) a b P Q : runs c a P -> runs (f a) b Q -> runs (cbind c f) b (P /\ Q).
Proof.
  intros (s & E & I) (s' & E' & I'). exists (s && s')%bool. split; [rewrite prover_bind, E, E'; reflexivity|]. rewrite andb_true_iff. tauto.
Qed.
Lemma runs_val {A} (c : circ A) a : prover c = Val (a, true) -> runs c a True.
Proof. intros E. exists true. split; [exact E|tauto]. Qed.
Lemma runs_iff {A} (c : circ A) a P Q : (P <-> Q) -> runs c a P -> runs c a Q.
Proof. intros I (s & E & J). exists s. split; [exact E|tauto]. Qed.
Lemma runs_enforce b : runs (enforce b) tt (b = true).
Proof. exists b. split; [apply prover_enforce|tauto]. Qed.
Lemma runs_ret {A} (a : A) : runs (Ret a) a True. Proof. apply runs_val. reflexivity. Qed.
Lemma stop_bind {A B} (c : circ A) (f : A -> circ B) r : prover c = failure r -> prover (cbind c f) = failure r.
Proof. intros E. rewrite prover_bind, E. destruct r as [[]|er|]; reflexivity. Qed.
Lemma runs_stop {A B} (c : circ A) (f : A -> circ B) a P r : runs c a P -> prover (f a) = failure r -> prover (cbind c f) = failure r.
Proof. intros (s & E & _) E'. rewrite prover_bind, E, E'. destruct r as [[]|er|]; reflexivity. Qed.

Section Outcome.
  Context {E1 E2 GT : grp} (e : E1 -> E2 -> GT) (gen1 : E1) (gen2 : E2).
  Context (of1 : apoint fq -> E1) (of2 : apoint fq2 -> E2) (to1 : E1 -> apoint fq) (to2 : E2 -> apoint fq2).
  Context (sqrt : fq -> option fq) (ped : bytes -> option fq) (compat pin debug : bool).
  Context {HP : Type} (helper_verify : HP -> list (list bool) -> bool).
  Notation header_of := (header_of to2).
  Notation coords_of := (coords_of to2).
  Notation good_block := (good_block of2 to2).
  Notation hash_block := (hash_block gen2 of1 to2 sqrt ped compat).
  Notation stops := (stops gen2 of1 to2 sqrt ped compat debug).
  Notation goes := (goes gen2 of1 to2 sqrt ped compat debug).
  Notation enough := (enough gen2).
  Notation valid := (valid gen1 gen2 of1 to2 sqrt ped compat).
  Notation constrain_update := (constrain_update gen2 of1 of2 to2 sqrt ped compat pin debug).
  Notation epochs_loop := (epochs_loop gen1 gen2 of1 of2 to2 sqrt ped compat pin debug).
  Notation generate_constraints := (generate_constraints e gen1 gen2 of1 of2 to1 to2 sqrt ped compat pin debug helper_verify).
  Notation good b := (good_block (length (eb_keys b)) b).
  Implicit Types (b nb : epoch_block E2) (s : @step E2) (bitmap : list bool).

  Hypothesis (Hsqrt : sqrt_spec qmul sqrt) (Hzero : of1 None = gz) (Hneg : negation_law of1) (Hg : gen2 <> gz).

  (** ** Parts *)
  Lemma stops_or_goes n s : goes n s \/ exists r, stops n s r.
  Proof.
    destruct s as [b bm]. unfold OutcomeSpec.goes. cbn [fst snd].
    destruct (Nat.eq_dec (length (eb_keys b)) n) as [L|L]; [|right; eexists; apply stops_keys, L].
    destruct (hash_block b) as [Hc|er|] eqn:HB; [|right; eexists; eapply stops_hash; eassumption|right; eexists; eapply stops_long; eassumption].
    destruct bm as [|x bm]; [right; eexists; eapply stops_empty; eassumption|].
    destruct (Nat.eq_dec (length (x :: bm)) n) as [L'|L']; [|right; eexists; eapply stops_length; try eassumption; discriminate].
    destruct debug eqn:D.
    - destruct (Z_lt_le_dec (positions false (x :: bm)) 256) as [Q|Q]; [left|right; eexists; eapply stops_count; eassumption || reflexivity].
      split; [exact L|]. split; [eauto|]. split; [discriminate|]. auto.
    - left. split; [exact L|]. split; [eauto|]. split; [discriminate|]. split; [exact L'|discriminate].
  Qed.
  Lemma goes_not_stops n s r : goes n s -> ~ stops n s r.
  Proof.
    intros (L & (Hc & HB) & NE & LB & D) X. destruct X; cbn [fst snd] in *; try congruence. match goal with X : debug = true |- _ => pose proof (D X); lia end.
  Qed.
  Lemma small_eq x y : 0 <= x < 2 ^ 376 -> 0 <= y < 2 ^ 376 -> fq_of x = fq_of y <-> x = y.
  Proof. intros X Y. split; [|congruence]. intros E. apply (f_equal fqv) in E. rewrite !fqv_small in E by assumption. exact E. Qed.
  Lemma index_range n b : good_block n b -> 0 <= eb_index b < 2 ^ 16. Proof. intros ((I & _) & _). exact I. Qed.
  Lemma index_zero n b : good_block n b -> fq_of (eb_index b) = q0 <-> eb_index b = 0.
  Proof.
    intros G. apply index_range in G. assert (2 ^ 16 < 2 ^ 376) by reflexivity. change q0 with (fq_of 0). apply small_eq; lia.
  Qed.
  Lemma index_next n b n' b' : good_block n b -> good_block n' b' -> fq_of (eb_index b') = qadd (fq_of (eb_index b)) q1 <-> eb_index b' = eb_index b + 1.
  Proof.
    intros G G'. apply index_range in G, G'. assert (2 ^ 16 + 1 < 2 ^ 376) by reflexivity.
    replace (qadd (fq_of (eb_index b)) q1) with (fq_of (eb_index b + 1)); [apply small_eq; lia|].
    apply fq_ext. unfold qadd. rewrite !fqv_of. change (fqv q1) with 1. modring. reflexivity.
  Qed.
  Lemma entropy_same n b n' b' : good_block n b -> good_block n' b' ->
    entropy_number (eb_epoch_entropy b) = entropy_number (eb_parent_entropy b') <-> entropy_value (eb_parent_entropy b') = entropy_value (eb_epoch_entropy b).
  Proof.
    intros (_ & A & _) (_ & _ & B & _). split; [|unfold entropy_number; intros ->; reflexivity]. intros X. unfold entropy_number in X.
    pose proof (entropy_range _ A) as RA. pose proof (entropy_range _ B) as RB. assert (2 ^ 128 < 2 ^ 376) by reflexivity.
    apply small_eq in X; [|lia|lia]. destruct (entropy_bytes _ A) as [A1 A2], (entropy_bytes _ B) as [B1 B2].
    symmetry. rewrite !bytes_number_eq in X. apply BatchProofs.le_val_inj; try assumption. congruence.
  Qed.
  Lemma hash_ok n b H c : good_block n b -> hash_block b = Ok (H, c) -> block_hash gen2 of1 to2 sqrt ped compat b H.
  Proof.
    intros _ HB. unfold OutcomeSpec.hash_block in HB. destruct (encode_inner_to_bytes_cip22 coords_of gen2 b) as [[m x]| |] eqn:E; cbn [rbind] in HB; try discriminate HB.
    exists m, x, c. auto.
  Qed.
  Lemma hash_counter n b : good_block n b -> find_counter of1 sqrt ped compat (map bits_le_val (pack_u8 (signed_bits (header_of b)))) (map bits_le_val (pack_u8 (extra_bits (header_of b)))) =
    match hash_block b with Ok (_, c) => Val c | Err _ => Fails Unsatisfiable | Panic => Panics end.
  Proof.
    intros G. pose proof (header_signed gen2 of2 to2 n b G) as HB. unfold OutcomeSpec.hash_block, encode_inner_to_bytes_cip22. rewrite <- HB. rewrite !pack_u8_native. cbn [rbind].
    unfold find_counter. reflexivity.
  Qed.
  Lemma cond_runs (a b : fq) (c : bool) : runs (conditional_enforce_equal a b c) tt (c = true -> a = b).
  Proof.
    eapply runs_iff; [apply (cond_equal_holds a b c tt)|]. unfold conditional_enforce_equal. eapply runs_iff; [|apply runs_enforce]. symmetry. apply holds_enforce.
  Qed.
  Lemma next_runs (prev i : fq) : runs (enforce_next_epoch prev i) tt (i <> q0 -> i = qadd prev q1).
  Proof.
    unfold enforce_next_epoch. eapply runs_iff; [|eapply runs_bind; [apply runs_val, is_eq_zero_prover|apply cond_runs]]. cbn [value]. rewrite nz_bit. tauto.
  Qed.
  Lemma bitmap_runs bitmap m : bitmap <> [] -> Z.of_nat (length bitmap) < p -> (debug = true -> positions false bitmap < 256) ->
    runs (enforce_maximum_occurrences_in_bitmap debug bitmap m false) tt (positions false bitmap < 256 /\ positions false bitmap <= fqv m < half).
  Proof.
    intros NE L D. destruct (Z_lt_le_dec (positions false bitmap) 256) as [Q|Q].
    - eexists. split; [apply bitmap_prover; assumption|]. rewrite andb_true_iff, Z.leb_le, Z.ltb_lt. tauto.
    - exists false. split; [|split; [intros X; discriminate X|lia]]. rewrite bitmap_overflow by assumption. destruct debug; [|reflexivity]. pose proof (D eq_refl). lia.
  Qed.
  Lemma aggregated_runs (keys : list E2) bitmap signing : signers keys bitmap signing -> runs (enforce_aggregated_pubkeys keys bitmap gen2) (sum signing) (~ In gen2 signing).
  Proof.
    intros S. eexists. split; [|apply all_not_in]. unfold enforce_aggregated_pubkeys. rewrite (signers_length _ _ _ S), Nat.eqb_refl, (GadgetProofs.loop_prover _ _ _ _ _ S), ga_0_l. reflexivity.
  Qed.
  Lemma prepare_runs (Q : E2) : runs (prepare_g2 Q) Q (Q <> gz).
  Proof.
    unfold prepare_g2. eapply runs_iff; [|eapply runs_bind; [apply runs_enforce|apply runs_ret]]. rewrite g2_nz. tauto.
  Qed.
  (** ** Updates *)
  Lemma hash_runs n b H c constrain : good_block n b -> hash_block b = Ok (H, c) ->
    exists crh xof, runs (hash_bits_to_g1 of1 sqrt ped compat pin (signed_bits (header_of b)) (extra_bits (header_of b)) constrain) (H, crh, xof) True.
  Proof.
    intros G HB. destruct (hash_prover gen2 of1 of2 to2 sqrt ped compat pin n b H constrain Hsqrt Hzero Hneg G (hash_ok n b H c G HB)) as (crh & xof & R).
    exists crh, xof. apply runs_val, R.
  Qed.
  Definition update_ok b nb bitmap signing (linked : Prop) : Prop :=
    (eb_index nb <> 0 -> eb_index nb = eb_index b + 1) /\
    (eb_index nb <> 0 -> linked -> entropy_value (eb_parent_entropy nb) = entropy_value (eb_epoch_entropy b)) /\ enough b bitmap signing.
  Lemma update_keys nb bitmap c ebit n constrain : length (eb_keys nb) <> n -> prover (constrain_update (item nb bitmap) c ebit (Z.of_nat n) constrain) = Panics.
  Proof.
    intros L. unfold EpochCircuitModel.constrain_update, item. cbn [su_data to_epoch_data ed_keys]. rewrite map_length.
    destruct (Z.eqb_spec (Z.of_nat n) (Z.of_nat (length (eb_keys nb)))); [lia|reflexivity].
  Qed.
  Lemma update_start nb bitmap c ebit n constrain : length (eb_keys nb) = n ->
    constrain_update (item nb bitmap) c ebit (Z.of_nat n) constrain =
    cbind (constrain_data of1 of2 to2 sqrt ped compat pin (to_epoch_data nb) (c_index c) constrain) (fun '(v, (message_hash, crh, xof)) =>
      z <- is_eq_zero (Var (v_index v)) ;;
      conditional_enforce_equal (c_entropy c) (v_parent v) (negb z && ebit) ;;;
      bm <- constrain_bool (map Some bitmap) ;;
      '(message_hash, apk) <- enforce_bitmap debug (c_keys c) bm message_hash (c_max c) gen2 ;;
      Ret (v, (message_hash, crh, xof), apk)).
  Proof.
    intros L. unfold EpochCircuitModel.constrain_update, item. cbn [su_data to_epoch_data ed_keys su_bitmap]. rewrite map_length, L, Z.eqb_refl. reflexivity.
  Qed.
  Lemma data_runs n b nb H c constrain : good_block n b -> good_block n nb -> hash_block nb = Ok (H, c) ->
    exists crh xof, runs (constrain_data of1 of2 to2 sqrt ped compat pin (to_epoch_data nb) (fq_of (eb_index b)) constrain) (vars_of (header_of nb), (H, crh, xof))
      (eb_index nb <> 0 -> eb_index nb = eb_index b + 1).
  Proof.
    intros Gb G HB. destruct (hash_runs n nb H c constrain G HB) as (crh & xof & R). exists crh, xof. unfold constrain_data.
    eapply runs_iff; [|eapply runs_bind; [eapply runs_val, to_bits_prover; exact G|eapply runs_bind; [apply next_runs|eapply runs_bind; [exact R|apply runs_ret]]]].
    cbn [vars_of v_index ProverSpec.header_of h_index]. rewrite (index_zero n nb G), (index_next n b n nb Gb G). tauto.
  Qed.
  Lemma update_runs n b nb bitmap signing H c ebit (linked : Prop) constrain : Z.of_nat n < p -> (ebit = true <-> linked) -> good_block n b -> good_block n nb -> hash_block nb = Ok (H, c) ->
    bitmap <> [] -> signers (eb_keys b) bitmap signing -> (debug = true -> positions false bitmap < 256) ->
    exists crh xof, runs (constrain_update (item nb bitmap) (carried_of b) ebit (Z.of_nat n) constrain) (vars_of (header_of nb), (H, crh, xof), sum signing)
      (update_ok b nb bitmap signing linked).
  Proof.
    intros Hn Hl Gb G HB NE S D. destruct (data_runs n b nb H c constrain Gb G HB) as (crh & xof & R). exists crh, xof.
    rewrite update_start by apply G.
    assert (LB : length bitmap = n) by (rewrite (signers_length _ _ _ S); apply Gb).
    eapply runs_iff; [|eapply runs_bind; [exact R|]].
    2:{ eapply runs_bind; [apply runs_val, is_eq_zero_prover|]. eapply runs_bind; [apply cond_runs|]. eapply runs_bind; [apply runs_val, constrain_bool_prover|].
        eapply (runs_bind _ _ (H, sum signing)); [|apply runs_ret]. unfold enforce_bitmap. eapply runs_bind; [apply bitmap_runs; [exact NE|rewrite LB; exact Hn|exact D]|].
        eapply runs_bind; [apply aggregated_runs; exact S|apply runs_ret]. }
    cbn [value vars_of v_index v_parent ProverSpec.header_of h_index h_parent carried_of c_entropy c_max c_keys c_index].
    rewrite andb_true_iff, nz_bit, (index_zero n nb G), Hl, (entropy_same n b n nb Gb G).
    destruct (max_range of2 to2 b n Gb) as [-> M]. unfold update_ok, OutcomeSpec.enough. tauto.
  Qed.
  Lemma update_stops n b nb bitmap r ebit constrain : Z.of_nat n < p -> good_block n b -> good nb -> stops n (nb, bitmap) r -> Z.of_nat (length bitmap) < p ->
    prover (constrain_update (item nb bitmap) (carried_of b) ebit (Z.of_nat n) constrain) = failure r.
  Proof.
    intros Hn Gb G S LB.
    assert (B : length (eb_keys nb) = n -> forall k, hash_block nb = Ok k -> forall rr, 
      (forall H : E1, prover (enforce_bitmap debug (eb_keys b) bitmap H (fq_of (eb_max_non_signers b)) gen2) = failure rr) ->
      prover (constrain_update (item nb bitmap) (carried_of b) ebit (Z.of_nat n) constrain) = failure rr).
    { intros L [H c] HB rr F. rewrite L in G. destruct (data_runs n b nb H c constrain Gb G HB) as (crh & xof & R). rewrite update_start by exact L.
      eapply runs_stop; [exact R|]. eapply runs_stop; [apply runs_val, is_eq_zero_prover|]. eapply runs_stop; [apply cond_runs|]. eapply runs_stop; [apply runs_val, constrain_bool_prover|].
      apply stop_bind, F. }
    assert (D : length (eb_keys nb) = n -> forall rr, match hash_block nb with Ok _ => False | Err _ => rr = Fails Unsatisfiable | Panic => rr = Panics end ->
      prover (constrain_update (item nb bitmap) (carried_of b) ebit (Z.of_nat n) constrain) = failure rr).
    { intros L rr F. rewrite L in G. rewrite update_start by exact L. apply stop_bind. unfold constrain_data.
      eapply runs_stop; [eapply runs_val, to_bits_prover; exact G|]. eapply runs_stop; [apply next_runs|]. apply stop_bind.
      unfold hash_bits_to_g1. cbn [vars_of v_bits v_extra]. apply stop_bind. rewrite (hash_counter n nb G). destruct (hash_block nb) as [[H c]| |]; [contradiction| |]; subst rr; reflexivity. }
    remember (nb, bitmap) as s eqn:Es.
    destruct S as [b0 bm L|b0 bm er L HB|b0 bm L HB|b0 k L HB|b0 bm k L HB NE LB'|b0 bm k L HB Dt Q]; injection Es as <- <-.
    - apply update_keys, L.
    - apply D; [exact L|]. rewrite HB. reflexivity.
    - apply D; [exact L|]. rewrite HB. reflexivity.
    - apply (B L k HB). intros H. reflexivity.
    - apply (B L k HB). intros H. unfold enforce_bitmap.
      destruct (Bool.bool_dec (debug && (256 <=? positions false bm)) true) as [X|X].
      + apply andb_true_iff in X as [X Y]. apply Z.leb_le in Y. apply (stop_bind _ _ Panics). rewrite bitmap_overflow by assumption. rewrite X. reflexivity.
      + apply not_true_is_false, andb_false_iff in X. eapply (runs_stop _ _ _ _ Panics); [apply bitmap_runs; [exact NE|exact LB|]|].
        * intros Dt. destruct X as [X|X]; [congruence|]. apply Z.leb_gt in X. exact X.
        * apply (stop_bind _ _ Panics), aggregated_panics. destruct Gb as (_ & _ & _ & -> & _). exact LB'.
    - apply (B L k HB). intros H. unfold enforce_bitmap. apply (stop_bind _ _ Panics). rewrite bitmap_overflow; [rewrite Dt; reflexivity|exact LB|exact Q].
  Qed.

  (** ** The loop *)
  Lemma valid_cons (linked : Prop) n b nb bitmap signing H c steps pairs b' : good_block n b -> signers (eb_keys b) bitmap signing -> hash_block nb = Ok (H, c) ->
    valid linked b ((nb, bitmap) :: steps) pairs b' <->
    exists rest, pairs = (if eb_index nb =? 0 then (gen1, gen2) else (H, sum signing)) :: rest /\ update_ok b nb bitmap signing linked /\
      (eb_index nb <> 0 -> sum signing <> gz) /\ valid linked (if eb_index nb =? 0 then b else nb) steps rest b'.
  Proof.
    intros Gb S HB. split.
    - intros V. inversion V as [|? ? ? signing' H' c' ? rest ? I L E NZ HB' V'|? ? ? signing' ? rest ? I E V']; subst.
      + assert (signing' = signing) as -> by (eapply signers_fun; [apply E|exact S]). rewrite HB in HB'. apply ok_inj, pair_equal_spec in HB' as [-> _].
        pose proof (index_range _ _ Gb). destruct (Z.eqb_spec (eb_index nb) 0); [lia|]. exists rest. unfold update_ok. tauto.
      + assert (signing' = signing) as -> by (eapply signers_fun; [apply E|exact S]). rewrite I. cbn [Z.eqb]. exists rest. unfold update_ok. rewrite I. tauto.
    - intros (rest & -> & (I & L & E) & NZ & V). destruct (Z.eqb_spec (eb_index nb) 0) as [X|X].
      + eapply valid_dummy; eassumption.
      + eapply valid_real; eauto.
  Qed.
  Definition shaped s : Prop := good (fst s) /\ Z.of_nat (length (snd s)) < p.
  Definition items (steps : list (@step E2)) : list (single_update E2) := map (fun '(nb, bitmap) => item nb bitmap) steps.
  Lemma next_case n b nb : good_block n b -> good_block n nb ->
    next (header_of nb) (carried_of b) = carried_of (if eb_index nb =? 0 then b else nb).
  Proof.
    intros Gb G. destruct (Z.eqb_spec (eb_index nb) 0) as [X|X].
    - unfold next. cbn [ProverSpec.header_of h_index]. assert (qeqb (fq_of (eb_index nb)) q0 = true) as -> by (apply qeqb_spec, (index_zero n nb G), X). reflexivity.
    - eapply next_real; [exact G|]. rewrite (index_zero n nb G). exact X.
  Qed.
  Lemma index_bit n nb : good_block n nb -> negb (qeqb (h_index (header_of nb)) q0) = negb (eb_index nb =? 0).
  Proof.
    intros G. f_equal. apply eq_iff_eq_true. rewrite qeqb_spec, Z.eqb_eq. exact (index_zero n nb G).
  Qed.
  Definition final_bits nb b' : list bool :=
    closing_bits (header_of nb) ++ encode_coords (match to2 (sum (eb_keys b')) with Some c => c | None => (q2_0, q2_0) end).
  Lemma last_runs nb b' : runs (last_bits to2 (vars_of (header_of nb)) (eb_keys b') (negb (eb_index nb =? 0))) (final_bits nb b')
    ((exists c, to2 (sum (eb_keys b')) = Some c) /\ eb_index nb <> 0).
  Proof.
    unfold last_bits, final_bits. eapply runs_iff; [|eapply (runs_bind _ _ (sum (eb_keys b')))].
    2:{ apply runs_val. cbn [enforce_aggregated_all_pubkeys prover]. rewrite <- sum_gsum. reflexivity. }
    2:{ eapply runs_bind; [apply runs_enforce|]. destruct (to2 (sum (eb_keys b'))) as [[x y]|];
        (eapply runs_bind; [apply runs_val, g2_bits_prover|eapply runs_bind; [unfold enforce_equal; apply runs_enforce|apply runs_ret]]). }
    cbv beta. assert (A : Bool.eqb (negb (eb_index nb =? 0)) true = true <-> eb_index nb <> 0) by (destruct (Z.eqb_spec (eb_index nb) 0); cbn [negb Bool.eqb]; intuition congruence).
    rewrite A. assert (B : (match to2 (sum (eb_keys b')) with Some _ => true | None => false end) = true <-> exists c, to2 (sum (eb_keys b')) = Some c).
    { destruct (to2 (sum (eb_keys b'))) as [c|]; split; [eauto|reflexivity|intros X; discriminate X|intros [c X]; discriminate X]. }
    rewrite B. tauto.
  Qed.
  Lemma loop_runs n (linked : Prop) ebit constrain : Z.of_nat n < p -> (ebit = true <-> linked) -> forall steps nb bitmap b,
    Forall (goes n) (steps ++ [(nb, bitmap)]) -> Forall shaped (steps ++ [(nb, bitmap)]) -> good_block n b ->
    exists crh xof pairs b', (eb_index nb <> 0 -> b' = nb) /\ good_block n b' /\
      runs (epochs_loop (items (steps ++ [(nb, bitmap)])) (carried_of b) ebit (Z.of_nat n) constrain) (final_bits nb b', crh, xof, map snd pairs, map fst pairs)
        (valid linked b (steps ++ [(nb, bitmap)]) pairs b' /\ eb_index nb <> 0 /\ (exists c, to2 (sum (eb_keys b')) = Some c)) /\
      (forall pairs' b'', valid linked b (steps ++ [(nb, bitmap)]) pairs' b'' -> pairs' = pairs /\ b'' = b').
  Proof.
    intros Hn Hl steps nb bitmap. induction steps as [|[nb0 bm0] steps IH]; intros b GO SH Gb.
    - cbn [app] in *. inversion GO as [|? ? (L & ([H c] & HB) & NE & LB & D) _]; subst. inversion SH as [|? ? (G & _) _]; subst. cbn [fst snd] in *.
      set (n := length (eb_keys nb)) in *. destruct (signers_total (eb_keys b) bitmap) as [signing S]; [rewrite LB; symmetry; apply Gb|].
      destruct (update_runs n b nb bitmap signing H c ebit linked constrain Hn Hl Gb G HB NE S D) as (crh & xof & R).
      exists (crh ++ []), (xof ++ []), [if eb_index nb =? 0 then (gen1, gen2) else (H, sum signing)], (if eb_index nb =? 0 then b else nb).
      split; [destruct (Z.eqb_spec (eb_index nb) 0); [contradiction|reflexivity]|]. split; [destruct (_ =? _); assumption|]. split.
      + cbn [items map EpochCircuitModel.epochs_loop]. eapply runs_iff; [|eapply runs_bind; [exact R|]].
        2:{ eapply runs_bind; [apply runs_val, is_eq_zero_prover|]. cbn [value v_index v_entropy v_max v_keys vars_of].
            rewrite next_eq by (cbn [ProverSpec.header_of h_keys carried_of c_keys]; rewrite map_length; symmetry; apply Gb).
            rewrite (next_case n) by assumption. rewrite (index_bit n) by assumption.
            eapply runs_bind; [apply prepare_runs|]. eapply runs_bind; [apply runs_ret|]. eapply runs_bind; [apply last_runs|]. eapply runs_bind; [apply runs_ret|].
            instantiate (1 := True). cbv beta iota. destruct (eb_index nb =? 0); apply runs_ret. }
        rewrite (valid_cons _ n _ _ _ _ _ _ _ _ _ Gb S HB). destruct (Z.eqb_spec (eb_index nb) 0) as [X|X]; cbn [negb]; split.
        * tauto.
        * tauto.
        * intros (U & _ & NZ & _ & (E & _) & _). split; [|tauto]. exists []. split; [reflexivity|]. split; [exact U|]. split; [tauto|constructor].
        * intros ((rest & _ & U & NZ & _) & _ & E). tauto.
      + intros pairs' b'' V. apply (valid_cons _ n _ _ _ _ _ _ _ _ _ Gb S HB) in V as (rest & -> & _ & _ & V). inversion V; subst. auto.
    - cbn [app] in *. inversion GO as [|? ? (L & ([H c] & HB) & NE & LB & D) GO']; subst. inversion SH as [|? ? (G & _) SH']; subst. cbn [fst snd] in *.
      set (n := length (eb_keys nb0)) in *. destruct (signers_total (eb_keys b) bm0) as [signing S]; [rewrite LB; symmetry; apply Gb|].
      destruct (update_runs n b nb0 bm0 signing H c ebit linked constrain Hn Hl Gb G HB NE S D) as (crh & xof & R).
      set (b1 := if eb_index nb0 =? 0 then b else nb0). assert (G1 : good_block n b1) by (unfold b1; destruct (_ =? _); assumption).
      destruct (IH b1 GO' SH' G1) as (crhs & xofs & rest & b' & EB & Gb' & R' & U).
      exists (crh ++ crhs), (xof ++ xofs), ((if eb_index nb0 =? 0 then (gen1, gen2) else (H, sum signing)) :: rest), b'.
      split; [exact EB|]. split; [exact Gb'|]. split.
      + cbn [items map EpochCircuitModel.epochs_loop]. change (map _ (steps ++ [(nb, bitmap)])) with (items (steps ++ [(nb, bitmap)])).
        assert (NI : exists u us, items (steps ++ [(nb, bitmap)]) = u :: us). { destruct steps as [|[? ?] ?]; cbn [items map app]; eauto. }
        destruct NI as (u & us & NI). rewrite NI in *.
        eapply runs_iff; [|eapply runs_bind; [exact R|]].
        2:{ eapply runs_bind; [apply runs_val, is_eq_zero_prover|]. cbn [value v_index v_entropy v_max v_keys vars_of].
            rewrite next_eq by (cbn [ProverSpec.header_of h_keys carried_of c_keys]; rewrite map_length; symmetry; apply Gb).
            rewrite (next_case n) by assumption. rewrite (index_bit n) by assumption.
            eapply runs_bind; [apply prepare_runs|]. eapply runs_bind; [apply runs_ret|]. eapply runs_bind; [apply runs_ret|]. eapply runs_bind; [exact R'|].
            instantiate (1 := True). cbv beta iota. destruct (eb_index nb0 =? 0); apply runs_ret. }
        rewrite (valid_cons _ n _ _ _ _ _ _ _ _ _ Gb S HB). fold b1. destruct (Z.eqb_spec (eb_index nb0) 0) as [X|X]; cbn [negb]; split.
        * intros (A & _ & _ & _ & _ & (V & E) & _). split; [|exact E]. exists rest. tauto.
        * intros ((rest' & Er & A & _ & V) & E). injection Er as <-. tauto.
        * intros (A & _ & NZ & _ & _ & (V & E) & _). split; [|exact E]. exists rest. tauto.
        * intros ((rest' & Er & A & NZ & V) & E). injection Er as <-. tauto.
      + intros pairs' b'' V. apply (valid_cons _ n _ _ _ _ _ _ _ _ _ Gb S HB) in V as (rest' & -> & _ & _ & V). apply U in V as [-> ->]. auto.
  Qed.
  Lemma loop_stops n ebit constrain s r rest : Z.of_nat n < p -> stops n s r -> forall steps b,
    Forall (goes n) steps -> Forall shaped (steps ++ [s]) -> good_block n b ->
    prover (epochs_loop (items (steps ++ s :: rest)) (carried_of b) ebit (Z.of_nat n) constrain) = failure r.
  Proof.
    intros Hn S steps. induction steps as [|[nb0 bm0] steps IH]; intros b GO SH Gb.
    - cbn [app] in *. inversion SH as [|? ? (G & LB) _]; subst. destruct s as [nb bitmap]. cbn [fst snd items map EpochCircuitModel.epochs_loop] in *.
      apply stop_bind. apply (update_stops n); assumption.
    - cbn [app] in *. inversion GO as [|? ? (L & ([H c] & HB) & NE & LB & D) GO']; subst. inversion SH as [|? ? (G & _) SH']; subst. cbn [fst snd] in *.
      set (n := length (eb_keys nb0)) in *. destruct (signers_total (eb_keys b) bm0) as [signing Sg]; [rewrite LB; symmetry; apply Gb|].
      destruct (update_runs n b nb0 bm0 signing H c ebit (ebit = true) constrain Hn ltac:(tauto) Gb G HB NE Sg D) as (crh & xof & R).
      cbn [items map EpochCircuitModel.epochs_loop]. change (map _ (steps ++ s :: rest)) with (items (steps ++ s :: rest)).
      assert (NI : exists u us, items (steps ++ s :: rest) = u :: us). { destruct steps as [|[? ?] ?]; cbn [items map app]; eauto. }
      destruct NI as (u & us & NI). rewrite NI in *.
      eapply runs_stop; [exact R|]. eapply runs_stop; [apply runs_val, is_eq_zero_prover|]. cbn [value v_index v_entropy v_max v_keys vars_of].
      rewrite next_eq by (cbn [ProverSpec.header_of h_keys carried_of c_keys]; rewrite map_length; symmetry; apply Gb).
      rewrite (next_case n) by assumption. eapply runs_stop; [apply prepare_runs|]. eapply runs_stop; [apply runs_ret|]. eapply runs_stop; [apply runs_ret|].
      apply stop_bind, IH; try assumption. destruct (_ =? _); assumption.
  Qed.

  (** ** The circuit *)
  Lemma entropy_bit n b : good_block n b -> negb (qeqb (entropy_number (eb_epoch_entropy b)) q0) = true <-> has_entropy b.
  Proof.
    intros (_ & A & _). rewrite nz_bit. unfold entropy_number, has_entropy. pose proof (entropy_range _ A). assert (2 ^ 128 < 2 ^ 376) by reflexivity.
    change q0 with (fq_of 0). rewrite small_eq by lia. tauto.
  Qed.
  Notation acceptable := (acceptable e gen1 gen2 of1 to2 sqrt ped compat).
  Lemma circuit_runs n b steps nb bitmap (s : E1) helper : Z.of_nat n < p -> good_signature of1 to1 s -> good_block n b ->
    Forall (goes n) (steps ++ [(nb, bitmap)]) -> Forall shaped (steps ++ [(nb, bitmap)]) ->
    exists inputs, runs (generate_constraints (mk_vsu (to_epoch_data b) (Z.of_nat n) (items (steps ++ [(nb, bitmap)])) (Some s) helper)) inputs
      (acceptable b (steps ++ [(nb, bitmap)]) nb s) /\
      (eb_index nb <> 0 -> (exists c, to2 (sum (eb_keys nb)) = Some c) -> public_inputs coords_of gsum gen2 blake2_out b nb = Ok (Some (map fqv inputs))).
  Proof.
    intros Hn GS Gb GO SH.
    destruct (loop_runs n (has_entropy b) (negb (qeqb (entropy_number (eb_epoch_entropy b)) q0)) (match helper with None => true | Some _ => false end) Hn (entropy_bit n b Gb) steps nb bitmap b GO SH Gb)
      as (crh & xof & pairs & b' & EB & Gb' & R & U).
    eexists. split.
    - unfold EpochCircuitModel.generate_constraints.
      eapply runs_iff; [|eapply (runs_bind _ _ (mk_bits (first_bits (header_of b)) (final_bits nb b') crh xof)); [|apply runs_val, edges_prover]].
      2:{ unfold enforce_epochs. cbn [vsu_initial vsu_helper vsu_epochs vsu_num_validators vsu_signature]. eapply runs_bind; [eapply runs_val, to_bits_prover; exact Gb|].
          eapply (runs_bind _ _ (final_bits nb b', crh, xof, map snd pairs, map fst pairs)).
          - unfold verify_intermediate_epochs. eapply runs_bind; [apply runs_val, is_eq_zero_prover|]. cbn [vsu_initial vsu_helper vsu_epochs vsu_num_validators vars_of v_keys v_index v_entropy v_max value].
            cbn [ProverSpec.header_of h_keys h_index h_entropy h_max]. rewrite map_map, map_id. exact R.
          - eapply (runs_bind _ _ tt); [|apply runs_ret]. unfold verify_signature. cbn [vsu_signature get smap]. eapply (runs_bind _ _ (tri1 (to1 s))).
            + apply runs_val. etransitivity; [exact (alloc_prover q0 q1 qmul qsub qeqb G1_B pin (to1 s))|]. f_equal. f_equal. change (g1_valid pin (tri1 (to1 s)) = true). rewrite g1_valid_tri. apply GS.
            + rewrite affine1_tri. destruct GS as [_ ->]. eexists. split; [apply prepared_prover; exact Hg|]. rewrite geqb_spec, combine_pairs. reflexivity. }
      unfold OutcomeSpec.acceptable, signed. split.
      + intros ((_ & (_ & V & I & E) & (_ & Sg) & _) & _). exists pairs. rewrite (EB I) in *. tauto.
      + intros (pairs' & V & I & E & Sg). apply U in V as V'. destruct V' as [-> ->]. tauto.
    - intros I [[x y] Et]. rewrite (EB I) in *. unfold final_bits. rewrite Et. cbn [b_first b_last].
      rewrite (header_first gen2 of2 to2 n b Gb), (header_closing gen2 of2 to2 n nb Gb'). apply native_inputs, Et.
  Qed.
  Lemma circuit_stops n b steps s0 rest r (s : option E1) helper : Z.of_nat n < p -> good_block n b -> stops n s0 r -> Forall (goes n) steps -> Forall shaped (steps ++ [s0]) ->
    prover (generate_constraints (mk_vsu (to_epoch_data b) (Z.of_nat n) (items (steps ++ s0 :: rest)) s helper)) = failure r.
  Proof.
    intros Hn Gb S GO SH. unfold EpochCircuitModel.generate_constraints. apply stop_bind. unfold enforce_epochs. cbn [vsu_initial vsu_helper vsu_epochs vsu_num_validators vsu_signature].
    eapply runs_stop; [eapply runs_val, to_bits_prover; exact Gb|]. apply stop_bind. unfold verify_intermediate_epochs. eapply runs_stop; [apply runs_val, is_eq_zero_prover|].
    cbn [vsu_initial vsu_helper vsu_epochs vsu_num_validators vars_of v_keys v_index v_entropy v_max value]. cbn [ProverSpec.header_of h_keys h_index h_entropy h_max]. rewrite map_map, map_id.
    apply (loop_stops n); assumption.
  Qed.
  (** ** prove *)
  Notation steps_of := (steps_of gen2).
  Lemma prove_is n b (ts : list (transition E1 E2)) t max (helper : option (list (transition E1 E2) -> result HP)) w :
    prove gen1 gen2 helper (Z.of_nat n) b (ts ++ [t]) max = Ok w ->
    exists o, w = mk_vsu (to_epoch_data b) (Z.of_nat n) (items (steps_of n ts (max - length (ts ++ [t])) t)) (Some (aggregate gen1 ts (max - length (ts ++ [t])) t)) o.
  Proof.
    intros W. unfold prove in W. destruct (prove_updates gen2 (Z.of_nat n) (ts ++ [t]) max) as [us| |] eqn:EU; cbn [rbind] in W; try discriminate W.
    destruct (match helper with Some f => rbind (f (ts ++ [t])) (fun h => Ok (Some h)) | None => Ok None end) as [o| |]; cbn [rbind] in W; try discriminate W.
    destruct (le_lt_dec (length (ts ++ [t])) max) as [L|L].
    - rewrite signature_ok in W by exact L. cbn [rbind] in W. rewrite updates_ok in EU by exact L. apply ok_inj in EU. apply ok_inj in W. exists o. subst w us.
      f_equal. unfold items, OutcomeSpec.steps_of. rewrite !map_app, map_map. cbn [map]. f_equal. f_equal. generalize (max - length (ts ++ [t]))%nat as d. clear. intros d.
      induction d as [|d IH]; [reflexivity|]. cbn [repeat map]. f_equal. exact IH.
    - unfold prove_signature in W. apply Nat.ltb_lt in L. rewrite L in W. discriminate W.
  Qed.
  Notation steps_shaped := (steps_shaped gen2 of2 to2).
  Lemma steps_shape n (ts : list (transition E1 E2)) t d : Z.of_nat n < p -> steps_shaped ts d t -> Forall shaped (steps_of n ts d t).
  Proof.
    intros Hn [A K]. unfold OutcomeSpec.steps_of. apply Forall_app in A as [A B]. apply Forall_app. split; [|apply Forall_app; split].
    - apply Forall_forall. intros s I. apply in_map_iff in I as (t' & <- & I). rewrite Forall_forall in A. exact (A _ I).
    - apply Forall_forall. intros s I. destruct d as [|d]; [destruct I|]. apply repeat_spec in I. subst s. unfold shaped. cbn [fst snd].
      rewrite repeat_length. split; [|exact Hn]. replace (length (eb_keys (dummy_block gen2 n))) with n by (cbn; symmetry; apply repeat_length). apply good_dummy, K. discriminate.
    - inversion B; subst. constructor; [assumption|constructor].
  Qed.
  Lemma prove_runs n b ts t max (helper : option (list (transition E1 E2) -> result HP)) w : Z.of_nat n < p -> (forall s : E1, good_signature of1 to1 s) -> good_block n b ->
    let d := (max - length (ts ++ [t]))%nat in steps_shaped ts d t ->
    prove gen1 gen2 helper (Z.of_nat n) b (ts ++ [t]) max = Ok w -> Forall (goes n) (steps_of n ts d t) ->
    exists inputs sat, prover (generate_constraints w) = Val (inputs, sat) /\
      (sat = true <-> acceptable b (steps_of n ts d t) (t_block t) (aggregate gen1 ts d t)) /\
      (eb_index (t_block t) <> 0 -> (exists c, to2 (sum (eb_keys (t_block t))) = Some c) -> public_inputs coords_of gsum gen2 blake2_out b (t_block t) = Ok (Some (map fqv inputs))).
  Proof.
    cbv zeta. intros Hn GS Gb SH W GO. apply prove_is in W as (o & ->). set (d := (max - length (ts ++ [t]))%nat) in *. apply (steps_shape n) in SH; [|exact Hn].
    assert (E : steps_of n ts d t = (map (fun t => (t_block t, t_bitmap t)) ts ++ repeat (dummy_block gen2 n, repeat true n) d) ++ [(t_block t, t_bitmap t)]).
    { unfold OutcomeSpec.steps_of. rewrite app_assoc. reflexivity. }
    rewrite E in *. destruct (circuit_runs n b _ _ _ (aggregate gen1 ts d t) o Hn (GS _) Gb GO SH) as (inputs & (sat & R & I) & P). eauto.
  Qed.
  Lemma prove_stops n b ts t max (helper : option (list (transition E1 E2) -> result HP)) w before s after r : Z.of_nat n < p -> good_block n b ->
    let d := (max - length (ts ++ [t]))%nat in steps_shaped ts d t ->
    prove gen1 gen2 helper (Z.of_nat n) b (ts ++ [t]) max = Ok w -> steps_of n ts d t = before ++ s :: after -> Forall (goes n) before -> stops n s r ->
    prover (generate_constraints w) = failure r.
  Proof.
    cbv zeta. intros Hn Gb SH W E GO S. apply prove_is in W as (o & ->). apply (steps_shape n) in SH; [|exact Hn]. rewrite E in *.
    apply (circuit_stops n); try assumption. apply Forall_app in SH as [A B]. inversion B; subst. apply Forall_app. auto.
  Qed.
  Lemma stops_fun n s r r' : stops n s r -> stops n s r' -> r = r'.
  Proof.
    intros S S'. destruct S; inversion S'; subst; try congruence; try reflexivity; match goal with X : 256 <= positions false [] |- _ => exfalso; vm_compute in X; congruence end.
  Qed.
  Lemma first_stop n (steps : list (@step E2)) : Forall (goes n) steps \/ exists before s after r, steps = before ++ s :: after /\ Forall (goes n) before /\ stops n s r.
  Proof.
    induction steps as [|s steps IH]; [left; constructor|]. destruct (stops_or_goes n s) as [G|[r S]]; [|right; exists [], s, steps, r; auto].
    destruct IH as [A|(before & s' & after & r & -> & A & S)]; [left; constructor; assumption|right; exists (s :: before), s', after, r; auto].
  Qed.
End Outcome.
