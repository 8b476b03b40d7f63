(** Proofs about the C interface. *)
From Coq Require Import Permutation.
From Verif Require Import Base Constants Group Field Curve BlsModel BlsSpec BlsProofs BatchProofs CacheModel CacheSpec CacheProofs
  BitsModel EncodingModel EncodingSpec EncodingProofs HasherModel HasherProofs PointModel PointProofs HashCurveModel HashCurveSpec HashCurveProofs
  CodecModel CodecSpec CodecProofs FfiModel FfiSpec.

Lemma forall2_imp {A B} (R R' : A -> B -> Prop) : (forall a b, R a b -> R' a b) -> forall l l', Forall2 R l l' -> Forall2 R' l l'.
Proof. induction 2; constructor; auto. Qed.
Lemma convert_store_ok {A} (x : result A) out : convert_result_to_bool (store x) = Returns true out <-> exists v, x = Ok v /\ out = Some v.
Proof.
  destruct x as [v|e|]; cbn; split; try discriminate; try (intros (w & D & _); discriminate D).
  - intros H. exists v. split; congruence.
  - intros (w & E & ->). congruence.
Qed.
Lemma convert_store_err {A} (x : result A) out : convert_result_to_bool (store x) = Returns false out <-> (exists e, x = Err e) /\ out = None.
Proof.
  destruct x as [v|e|]; cbn; split; try discriminate; try (intros ((w & D) & _); discriminate D).
  - intros H. split; [eauto|congruence].
  - intros (_ & ->). reflexivity.
Qed.
Lemma convert_store_panic {A} (x : result A) : convert_result_to_bool (store x) = Panics <-> x = Panic.
Proof. destruct x; cbn; split; congruence. Qed.
Lemma to_is_ok_panic {A} (x : result A) : to_is_ok x = Panic <-> x = Panic.
Proof. destruct x; cbn; split; congruence. Qed.
Lemma to_is_ok_total {A} (x : result A) : x <> Panic -> exists b, to_is_ok x = Ok b /\ (b = true <-> exists v, x = Ok v).
Proof.
  destruct x as [v|e|]; intros N; [exists true|exists false|congruence]; cbn; split; auto; split; eauto; try discriminate.
  intros (w & D). discriminate D.
Qed.
(** C50 in one lemma: an is_ok verdict stored through the out pointer *)
Lemma verdict_spec (x : result unit) (P : Prop) : (x = Ok tt <-> P) -> x <> Panic ->
  exists b, convert_result_to_bool (store (to_is_ok x)) = Returns true (Some b) /\ (b = true <-> P).
Proof.
  intros HP N. destruct (to_is_ok_total x N) as (b & -> & Hb). exists b. split; [reflexivity|].
  rewrite Hb, <- HP. split; [intros ([] & E); exact E|eauto].
Qed.

Section Sig.
  Context {pr : pairing} (direct composite composite_cip22 : BlsModel.hasher pr).
  Notation sel := (selected direct composite composite_cip22).
  Notation fsign := (ffi_sign_message direct composite composite_cip22).
  Notation fverify := (ffi_verify_signature direct composite composite_cip22).

  Lemma sel_cases c f : (c = false /\ f = true) \/ exists h, sel c f h.
  Proof. destruct c, f; [right|right|left|right]; eauto using (@selected). Qed.
  Lemma sel_unique c f h h' : sel c f h -> sel c f h' -> h = h'.
  Proof. intros H. inversion H; subst; intros H'; inversion H'; reflexivity. Qed.
  Lemma fsign_sel c f h sk m x : sel c f h -> fsign sk m x c f = convert_result_to_bool (store (outcome (sign h sk m x))).
  Proof. intros H. inversion H; reflexivity. Qed.
  Lemma fverify_sel c f h pk m x s : sel c f h ->
    fverify pk m x s c f = convert_result_to_bool (store (to_is_ok (outcome (verify h pk m x s)))).
  Proof. intros H. inversion H; reflexivity. Qed.

  Lemma sign_value (h : BlsModel.hasher pr) sk d m x s : outcome (sign_message h sk d m x) = Ok s <-> exists H, h d m x = Ok H /\ s = smul sk H.
  Proof.
    rewrite sign_message_outcome. destruct (h d m x) as [H|e|]; cbn; split; try discriminate; try (intros (w & D & _); discriminate D).
    - intros E. exists H. split; [reflexivity|]. injection E as <-. reflexivity.
    - intros (w & E & ->). injection E as ->. reflexivity.
  Qed.
  Lemma fsign_value c f h sk m x s : sel c f h ->
    fsign sk m x c f = Returns true (Some s) <-> exists H, h SIG_DOMAIN m x = Ok H /\ s = smul sk H.
  Proof.
    intros S0. rewrite (fsign_sel _ _ _ _ _ _ S0), convert_store_ok. unfold sign. rewrite <- sign_value. split.
    - intros (v & -> & E). injection E as ->. reflexivity.
    - intros ->. eauto.
  Qed.
  Lemma fsign_true c f sk m x out : fsign sk m x c f = Returns true out -> exists h s, sel c f h /\ out = Some s /\
    exists H, h SIG_DOMAIN m x = Ok H /\ s = smul sk H.
  Proof.
    intros E. destruct (sel_cases c f) as [[-> ->]|[h S0]]; [discriminate E|]. exists h.
    pose proof E as E'. rewrite (fsign_sel _ _ _ _ _ _ S0), convert_store_ok in E'. destruct E' as (s & _ & ->).
    exists s. split; [exact S0|]. split; [reflexivity|]. apply (fsign_value c f h); assumption.
  Qed.
  Lemma fsign_unwritten c f sk m x out : fsign sk m x c f = Returns false out -> out = None.
  Proof. intros E. destruct c, f; apply convert_store_err in E; apply E. Qed.

  Lemma verify_sig_panic (h : BlsModel.hasher pr) pk d m x s : outcome (verify_sig h pk d m x s) = Panic <-> h d m x = Panic.
  Proof. rewrite verify_sig_outcome. destruct (h d m x) as [H|e|]; cbn; [|split; congruence|split; congruence]. destruct (pairing_is_one _); split; congruence. Qed.
  Lemma fverify_spec c f h pk m x s : sel c f h ->
    (fverify pk m x s c f = Panics <-> h SIG_DOMAIN m x = Panic) /\
    (h SIG_DOMAIN m x <> Panic -> exists b, fverify pk m x s c f = Returns true (Some b) /\ (b = true <-> valid_in h SIG_DOMAIN m x pk s)).
  Proof.
    intros S0. rewrite !(fverify_sel _ _ _ _ _ _ _ S0). split.
    - rewrite convert_store_panic, to_is_ok_panic. apply verify_sig_panic.
    - intros N. apply verdict_spec; [apply verify_sig_iff|]. unfold verify. rewrite verify_sig_panic. exact N.
  Qed.
  Lemma fverify_true c f h pk m x s : sel c f h ->
    fverify pk m x s c f = Returns true (Some true) <-> valid_in h SIG_DOMAIN m x pk s.
  Proof.
    intros S0. destruct (fverify_spec c f h pk m x s S0) as [HP HS]. split.
    - intros E. destruct (h SIG_DOMAIN m x) as [H|e|] eqn:Hh.
      3:{ rewrite (proj2 HP eq_refl) in E. discriminate E. }
      all: destruct HS as (b & E' & Hb); [discriminate|]; rewrite E' in E; injection E as ->; apply Hb; reflexivity.
    - intros V. destruct HS as (b & -> & Hb). { destruct V as (H & -> & _). discriminate. }
      rewrite (proj2 Hb V). reflexivity.
  Qed.
  Lemma sign_verify c f sk m x s : fsign sk m x c f = Returns true (Some s) -> fverify (to_public sk) m x s c f = Returns true (Some true).
  Proof.
    intros E. destruct (fsign_true _ _ _ _ _ _ E) as (h & s' & S0 & E' & H & Hh & Hs). injection E' as <-.
    apply (fverify_true c f h); [exact S0|]. exists H. split; [exact Hh|]. exists sk. split; [reflexivity|exact Hs].
  Qed.
  Lemma cross_flags c f c' f' sk m x m' x' s : ~ (r | sk) -> fsign sk m x c f = Returns true (Some s) ->
    fverify (to_public sk) m' x' s c' f' = Returns true (Some true) <->
    exists h h' H, sel c f h /\ sel c' f' h' /\ h SIG_DOMAIN m x = Ok H /\ h' SIG_DOMAIN m' x' = Ok H.
  Proof.
    intros Hr E. destruct (fsign_true _ _ _ _ _ _ E) as (h & s' & S0 & E' & H & Hh & Hs). injection E' as <-. split.
    - intros V. destruct (sel_cases c' f') as [[-> ->]|[h' S']]; [discriminate V|].
      apply (fverify_true _ _ _ _ _ _ _ S') in V. destruct V as (H' & Hh' & k & Hk & Ek).
      exists h, h', H. split; [exact S0|]. split; [exact S'|]. split; [exact Hh|]. rewrite Hh'. f_equal.
      assert (E0 : smul sk H = smul sk H').
      { rewrite <- Hs, Ek. symmetry. apply (smul_dlog_irrel sk k (to_public sk)); [reflexivity|exact Hk]. }
      apply smul_cancel_unit in E0; try apply G1_ord_all; try assumption. symmetry. exact E0.
    - intros (h1 & h2 & H' & S1 & S2 & E1 & E2). apply (fverify_true _ _ _ _ _ _ _ S2). exists H'. split; [exact E2|].
      rewrite (sel_unique _ _ _ _ S1 S0) in E1. assert (H' = H) as -> by congruence. exists sk. split; [reflexivity|exact Hs].
  Qed.

  Lemma fpop_spec pk m s :
    (ffi_verify_pop direct pk m s = Panics <-> direct POP_DOMAIN m [] = Panic) /\
    (direct POP_DOMAIN m [] <> Panic -> exists b, ffi_verify_pop direct pk m s = Returns true (Some b) /\ (b = true <-> valid_in direct POP_DOMAIN m [] pk s)).
  Proof.
    unfold ffi_verify_pop. split.
    - rewrite convert_store_panic, to_is_ok_panic. apply verify_sig_panic.
    - intros N. apply verdict_spec; [apply verify_sig_iff|]. unfold verify_pop. rewrite verify_sig_panic. exact N.
  Qed.
  Lemma fpop_sign sk m s : ffi_sign_pop direct sk m = Returns true (Some s) <-> exists H, direct POP_DOMAIN m [] = Ok H /\ s = smul sk H.
  Proof.
    unfold ffi_sign_pop, sign_pop. rewrite convert_store_ok, <- sign_value. split.
    - intros (v & -> & E). injection E as ->. reflexivity.
    - intros ->. eauto.
  Qed.
  Lemma fpop_roundtrip sk m s : ffi_sign_pop direct sk m = Returns true (Some s) -> ffi_verify_pop direct (to_public sk) m s = Returns true (Some true).
  Proof.
    rewrite fpop_sign. intros (H & Hh & ->). destruct (fpop_spec (to_public sk) m (smul sk H)) as [_ HS].
    destruct HS as (b & -> & Hb); [rewrite Hh; discriminate|]. rewrite (proj2 Hb); [reflexivity|].
    exists H. split; [exact Hh|]. exists sk. split; reflexivity.
  Qed.

  (** *** batch_verify_signature *)
  Notation fbatch := (ffi_batch_verify_signature direct composite composite_cip22).
  Definition pairs_of (ms : list (message pr)) := map (fun m => (m_data m, m_extra m)) ms.
  Lemma fbatch_sel c f h ms : sel c f h ->
    fbatch ms c f = convert_result_to_bool (store (to_is_ok (outcome
      (batch_verify h (aggregate_sig (map m_sig ms)) (map m_key ms) SIG_DOMAIN (pairs_of ms))))).
  Proof. intros H. inversion H; reflexivity. Qed.
  Lemma hash_all_panic (h : BlsModel.hasher pr) d l : outcome (hash_all h d l) = Panic -> exists m x, In (m, x) l /\ h d m x = Panic.
  Proof.
    induction l as [|[m x] l IH]; [discriminate|]. cbn [hash_all]. unfold do_hash, bind, outcome in *.
    destruct (h d m x) as [H|e|] eqn:Hh.
    - destruct (hash_all h d l) as [q [Ps|e|]]; cbn in *; try discriminate. intros _. destruct (IH eq_refl) as (m' & x' & I & P). eauto using in_cons.
    - discriminate.
    - intros _. exists m, x. split; [left; reflexivity|exact Hh].
  Qed.
  Lemma batch_no_panic' (h : BlsModel.hasher pr) s ks d ms : (forall m x, In (m, x) ms -> h d m x <> Panic) -> outcome (batch_verify h s ks d ms) <> Panic.
  Proof.
    intros N. unfold batch_verify. destruct (negb _); [discriminate|].
    destruct (hash_all h d ms) as [q [Ps|e|]] eqn:E; unfold bind, outcome; cbn.
    - unfold batch_verify_hashes. destruct (negb _); [discriminate|]. destruct (pairing_is_one _); discriminate.
    - discriminate.
    - intros _. destruct (hash_all_panic h d ms) as (m & x & I & P); [rewrite E; reflexivity|]. apply (N m x I P).
  Qed.
  Lemma fbatch_spec c f h ms : sel c f h -> (forall m, In m ms -> h SIG_DOMAIN (m_data m) (m_extra m) <> Panic) ->
    exists b, fbatch ms c f = Returns true (Some b) /\
      (b = true <-> exists Hs ss, Forall2 (fun m H => h SIG_DOMAIN (m_data m) (m_extra m) = Ok H) ms Hs /\
        signatures_on Hs (map m_key ms) ss /\ total (map m_sig ms) = total ss).
  Proof.
    intros S0 N. rewrite (fbatch_sel _ _ _ _ S0). apply verdict_spec.
    - rewrite batch_verify_iff. unfold aggregate_sig. rewrite <- total_gsum.
      assert (Q : forall Hs, Forall2 (fun mx H => h SIG_DOMAIN (fst mx) (snd mx) = Ok H) (pairs_of ms) Hs <->
        Forall2 (fun m H => h SIG_DOMAIN (m_data m) (m_extra m) = Ok H) ms Hs).
      { clear. unfold pairs_of. induction ms as [|m ms IH]; intros Hs; split; intros H; inversion H; subst; constructor; try assumption; apply IH; assumption. }
      split; intros (Hs & ss & A & B & C); exists Hs, ss; repeat split; try assumption; apply Q; assumption.
    - apply batch_no_panic'. intros m x I. apply in_map_iff in I. destruct I as (mm & E & I). injection E as <- <-. apply N, I.
  Qed.

  (** *** batch_verify_strict *)
  Notation fstrict := (ffi_batch_verify_strict direct composite composite_cip22).
  Lemma strict_entries (b : batch_message pr) :
    entries (strict_context b) = combine (bm_keys b) (bm_sigs b) /\ b_message (strict_context b) = bm_data b /\ b_extra (strict_context b) = bm_extra b.
  Proof.
    unfold strict_context.
    assert (G : forall l (c : batch pr), let c' := fold_left (fun c '(pk, sig) => batch_add c pk sig) l c in
      entries c' = entries c ++ l /\ b_message c' = b_message c /\ b_extra c' = b_extra c).
    { induction l as [|[pk s] l IH]; intros c; cbn [fold_left]; [rewrite app_nil_r; auto|].
      destruct (IH (batch_add c pk s)) as (A & B & C). cbn in *. rewrite A, <- app_assoc. auto. }
    destruct (G (combine (bm_keys b) (bm_sigs b)) (batch_new (bm_data b) (bm_extra b))) as (A & B & C). auto.
  Qed.
  Definition pair_count (b : batch_message pr) : nat := min (length (bm_keys b)) (length (bm_sigs b)).
  Lemma strict_count b : length (entries (strict_context b)) = pair_count b.
  Proof. destruct (strict_entries b) as (-> & _). apply combine_length. Qed.
  Lemma strict_draw_for b rnd : Z.of_nat (pair_count b) <= usize_max -> strict_draw (pair_count b) rnd -> draw_for (strict_context b) rnd.
  Proof.
    intros Hn [L F]. split; [rewrite strict_count; exact L|]. revert F. apply Forall_impl. intros x [B E]. split; [exact B|].
    rewrite E. unfold exp_size. rewrite strict_count. unfold byte_count_from_target_batch_size, ark_log2, SECURITY_BOUND, fr_size_in_bits.
    destruct (log2_up_usize (Z.of_nat (pair_count b))) as [l0 l1]; [lia|]. change (253 / 8) with 31.
    rewrite Z.min_l; [reflexivity|]. apply Z.lt_succ_r. apply Z.div_lt_upper_bound; lia.
  Qed.
  Lemma draw_for_strict b rnd : Z.of_nat (pair_count b) <= usize_max -> draw_for (strict_context b) rnd -> strict_draw (pair_count b) rnd.
  Proof.
    intros Hn [L F]. split; [rewrite <- strict_count; exact L|]. revert F. apply Forall_impl. intros x [B E]. split; [exact B|].
    rewrite E. unfold exp_size. rewrite strict_count. unfold byte_count_from_target_batch_size, ark_log2, SECURITY_BOUND, fr_size_in_bits.
    destruct (log2_up_usize (Z.of_nat (pair_count b))) as [l0 l1]; [lia|]. change (253 / 8) with 31.
    rewrite Z.min_l; [reflexivity|]. apply Z.lt_succ_r. apply Z.div_lt_upper_bound; lia.
  Qed.
  Lemma lincomb_combine_fst {A B : grp} es (a : list A) (b : list B) : length es = min (length a) (length b) ->
    lincomb es (map fst (combine a b)) = lincomb es a /\ lincomb es (map snd (combine a b)) = lincomb es b.
  Proof.
    revert a b. induction es as [|e0 es IH]; intros [|x a] [|y b] H; cbn [length min] in H; try discriminate H; try (split; reflexivity).
    cbn [combine map fst snd lincomb]. destruct (IH a b) as [-> ->]; [lia|]. split; reflexivity.
  Qed.
  Lemma slot_iff (h : BlsModel.hasher pr) b rnd : Z.of_nat (pair_count b) <= usize_max -> strict_draw (pair_count b) rnd ->
    outcome (batch_verify_random h (strict_context b) rnd) = Ok tt <->
    combined_valid h (bm_data b) (bm_extra b) (bm_keys b) (bm_sigs b) rnd.
  Proof.
    intros Hn D. rewrite batch_verify_random_unfold by (apply strict_draw_for; assumption). unfold verify. rewrite verify_sig_iff.
    destruct (strict_entries b) as (-> & -> & ->). unfold valid_in, combined_valid.
    destruct (lincomb_combine_fst (map le_val rnd) (bm_keys b) (bm_sigs b)) as [-> ->].
    { rewrite map_length. apply D. }
    reflexivity.
  Qed.
  Lemma strict_loop_spec c f bs slots : Forall2 (fun q s => strict_slot direct composite composite_cip22 c f (fst q) (snd q) = Ok s) bs slots ->
    forall acc v, strict_loop direct composite composite_cip22 c f bs acc v = Ok (acc ++ slots, v && forallb id slots).
  Proof.
    induction 1 as [|[b rnd] s bs slots E _ IH]; intros acc v; cbn [strict_loop].
    - rewrite app_nil_r, andb_true_r. reflexivity.
    - cbn [fst snd] in E. rewrite E. cbn [rbind]. rewrite IH, <- app_assoc. cbn [app forallb]. f_equal. f_equal.
      destruct s, v; reflexivity.
  Qed.
  Lemma strict_of_slots c f bs slots : Forall2 (fun q s => strict_slot direct composite composite_cip22 c f (fst q) (snd q) = Ok s) bs slots ->
    fstrict bs c f = Returns (forallb id slots) (Some slots).
  Proof.
    intros H. unfold ffi_batch_verify_strict. rewrite (strict_loop_spec _ _ _ _ H). cbn [app andb].
    destruct (forallb id slots); reflexivity.
  Qed.
  Lemma slot_sel c f h b rnd : sel c f h ->
    strict_slot direct composite composite_cip22 c f b rnd = to_is_ok (outcome (batch_verify_random h (strict_context b) rnd)).
  Proof. intros H. inversion H; reflexivity. Qed.
  Definition strict_ready (h : BlsModel.hasher pr) (q : batch_message pr * list bytes) : Prop :=
    Z.of_nat (pair_count (fst q)) <= usize_max /\ strict_draw (pair_count (fst q)) (snd q) /\
    h SIG_DOMAIN (bm_data (fst q)) (bm_extra (fst q)) <> Panic.
  Lemma slot_total c f h b rnd : sel c f h -> strict_ready h (b, rnd) ->
    exists s, strict_slot direct composite composite_cip22 c f b rnd = Ok s /\
      (s = true <-> combined_valid h (bm_data b) (bm_extra b) (bm_keys b) (bm_sigs b) rnd).
  Proof.
    intros S0 (Hn & D & N). cbn [fst snd] in *. rewrite (slot_sel _ _ _ _ _ S0).
    destruct (to_is_ok_total (outcome (batch_verify_random h (strict_context b) rnd))) as (s & -> & Hs).
    - apply batch_no_panic; [apply strict_draw_for; assumption|]. destruct (strict_entries b) as (_ & -> & ->). exact N.
    - exists s. split; [reflexivity|]. rewrite Hs, <- slot_iff by assumption. split; [intros ([] & E); exact E|eauto].
  Qed.
  Lemma strict_spec c f h bs : sel c f h -> Forall (strict_ready h) bs ->
    exists slots, fstrict bs c f = Returns (forallb id slots) (Some slots) /\
      Forall2 (fun q s => s = true <-> combined_valid h (bm_data (fst q)) (bm_extra (fst q)) (bm_keys (fst q)) (bm_sigs (fst q)) (snd q)) bs slots.
  Proof.
    intros S0 R.
    assert (G : exists slots, Forall2 (fun q s => strict_slot direct composite composite_cip22 c f (fst q) (snd q) = Ok s /\
      (s = true <-> combined_valid h (bm_data (fst q)) (bm_extra (fst q)) (bm_keys (fst q)) (bm_sigs (fst q)) (snd q))) bs slots).
    { induction R as [|[b rnd] bs Hr _ (slots & IH)]; [exists []; constructor|].
      destruct (slot_total c f h b rnd S0 Hr) as (s & E & Hs). exists (s :: slots). constructor; [split; [exact E|exact Hs]|exact IH]. }
    destruct G as (slots & G). exists slots. split.
    - apply strict_of_slots. eapply forall2_imp; [|exact G]. intros q s [E _]. exact E.
    - eapply forall2_imp; [|exact G]. intros q s [_ E]. exact E.
  Qed.
  Lemma bad_flags_strict bs : fstrict bs false true = Returns (match bs with [] => true | _ => false end) (Some (repeat false (length bs))).
  Proof.
    rewrite (strict_of_slots false true bs (repeat false (length bs))).
    - destruct bs; reflexivity.
    - induction bs; constructor; [reflexivity|assumption].
  Qed.
  Definition pair_ok (h : BlsModel.hasher pr) (b : batch_message pr) : Prop :=
    Forall (fun '(pk, s) => valid_in h SIG_DOMAIN (bm_data b) (bm_extra b) pk s) (combine (bm_keys b) (bm_sigs b)).
  Lemma pair_ok_entries h b : pair_ok h b <-> Forall (entry_valid h (strict_context b)) (entries (strict_context b)).
  Proof.
    destruct (strict_entries b) as (-> & E2 & E3). unfold pair_ok, entry_valid. rewrite E2, E3.
    split; apply Forall_impl; intros [pk s]; exact (fun x => x).
  Qed.
  Lemma strict_complete c f h bs : sel c f h -> Forall (strict_ready h) bs ->
    Forall (fun q => pair_ok h (fst q) /\ is_ok (h SIG_DOMAIN (bm_data (fst q)) (bm_extra (fst q))) = true) bs ->
    fstrict bs c f = Returns true (Some (repeat true (length bs))).
  Proof.
    intros S0 R V. rewrite (strict_of_slots c f bs (repeat true (length bs))).
    - f_equal. clear. induction bs; [reflexivity|assumption].
    - induction bs as [|[b rnd] bs IH]; [constructor|]. inversion R as [|? ? (Hn & D & N) R']; subst. inversion V as [|? ? [V1 V2] V']; subst. cbn [fst snd] in *.
      constructor; [|apply IH; assumption]. cbn [fst snd]. rewrite (slot_sel _ _ _ _ _ S0).
      rewrite (batch_complete h (strict_context b) rnd); [reflexivity|apply strict_draw_for; assumption| |apply pair_ok_entries, V1].
      destruct (strict_entries b) as (_ & -> & ->). exact V2.
  Qed.
  Lemma strict_sound c f h b (L : list (list bytes)) : sel c f h -> Z.of_nat (pair_count b) <= usize_max ->
    ~ pair_ok h b -> NoDup L ->
    (forall rnd, In rnd L -> strict_draw (pair_count b) rnd /\ exists out, fstrict [(b, rnd)] c f = Returns true out) ->
    Z.of_nat (length L) * 2 ^ (8 * ((128 + Z.log2_up (Z.of_nat (pair_count b)) + 7) / 8)) <=
    2 ^ (8 * ((128 + Z.log2_up (Z.of_nat (pair_count b)) + 7) / 8) * Z.of_nat (pair_count b)).
  Proof.
    intros S0 Hn V ND A.
    assert (X : exp_size (strict_context b) = (128 + Z.log2_up (Z.of_nat (pair_count b)) + 7) / 8).
    { unfold exp_size. rewrite strict_count. unfold byte_count_from_target_batch_size, ark_log2, SECURITY_BOUND, fr_size_in_bits.
      destruct (log2_up_usize (Z.of_nat (pair_count b))) as [l0 l1]; [lia|]. change (253 / 8) with 31.
      apply Z.min_l. apply Z.lt_succ_r. apply Z.div_lt_upper_bound; lia. }
    rewrite <- X. rewrite <- (strict_count b) at 1. apply (batch_sound_count h (strict_context b) L).
    - rewrite <- pair_ok_entries. exact V.
    - exact ND.
    - intros rnd I. destruct (A rnd I) as (D & out & E). pose proof (strict_draw_for b rnd Hn D) as D'. split; [exact D'|].
      unfold ffi_batch_verify_strict in E. cbn [strict_loop] in E. rewrite (slot_sel _ _ _ _ _ S0) in E.
      destruct (outcome (batch_verify_random h (strict_context b) rnd)) as [[]|e|]; [reflexivity|discriminate E|discriminate E].
  Qed.
  Lemma surplus_combine {A B} (a : list A) (b : list B) x : length a = length b ->
    combine (a ++ x) b = combine a b /\ forall y, combine a (b ++ y) = combine a b.
  Proof.
    revert b. induction a as [|u a IH]; intros [|v b] L; try discriminate L.
    - split; [destruct x; reflexivity|reflexivity].
    - cbn [app combine]. destruct (IH b) as [-> E]; [cbn in L; lia|]. split; [reflexivity|]. intros y. rewrite E. reflexivity.
  Qed.
  Lemma strict_context_surplus d x (ks : list (G2 pr)) (ss : list (G1 pr)) ks' ss' : length ks = length ss ->
    strict_context (BMsg d x (ks ++ ks') ss) = strict_context (BMsg d x ks ss) /\
    strict_context (BMsg d x ks (ss ++ ss')) = strict_context (BMsg d x ks ss).
  Proof.
    intros L. unfold strict_context. cbn [bm_keys bm_sigs bm_data bm_extra].
    destruct (surplus_combine ks ss ks' L) as [-> E]. rewrite E. split; reflexivity.
  Qed.
  Lemma strict_context_same c f bs bs' :
    Forall2 (fun q q' => strict_context (fst q) = strict_context (fst q') /\ snd q = snd q') bs bs' -> fstrict bs c f = fstrict bs' c f.
  Proof.
    intros H. unfold ffi_batch_verify_strict.
    assert (G : forall acc v, strict_loop direct composite composite_cip22 c f bs acc v = strict_loop direct composite composite_cip22 c f bs' acc v).
    { induction H as [|[b rnd] [b' rnd'] bs bs' [E1 E2] _ IH]; intros acc v; [reflexivity|]. cbn [fst snd strict_loop] in *. subst rnd'.
      unfold strict_slot. rewrite E1. set (y := match c with true => _ | false => _ end). destruct y as [s|e|]; cbn [rbind]; [apply IH|reflexivity|reflexivity]. }
    rewrite G. reflexivity.
  Qed.
  Lemma strict_empty c f h d x (ks : list (G2 pr)) (ss : list (G1 pr)) H : sel c f h -> h SIG_DOMAIN d x = Ok H -> ks = [] \/ ss = [] ->
    fstrict [(BMsg d x ks ss, [])] c f = Returns true (Some [true]).
  Proof.
    intros S0 Hh E. assert (C : combine ks ss = []) by (destruct E as [-> | ->]; [reflexivity|destruct ks; reflexivity]).
    assert (PC : pair_count (BMsg d x ks ss) = 0%nat) by (unfold pair_count; cbn [bm_keys bm_sigs]; destruct E as [-> | ->]; cbn [length]; lia).
    apply (strict_complete c f h [(BMsg d x ks ss, [])] S0); constructor; try constructor; cbn [fst snd].
    - rewrite PC. unfold usize_max. lia.
    - rewrite PC. split; [split; [reflexivity|constructor]|]. cbn [bm_data bm_extra]. rewrite Hh. discriminate.
    - unfold pair_ok. cbn [bm_keys bm_sigs]. rewrite C. constructor.
    - cbn [bm_data bm_extra]. rewrite Hh. reflexivity.
  Qed.
End Sig.
