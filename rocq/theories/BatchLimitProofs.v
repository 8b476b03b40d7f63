(** When the two batch verification functions of the C interface panic. *)
From Coq Require Import Permutation.
From Verif Require Import Base Constants Group Instances Field Curve BlsModel BlsSpec BlsProofs BatchProofs EncodingModel HasherModel PointModel HashCurveModel HashCurveSpec
  FfiModel FfiSpec FfiProofs Edwards PedersenModel PedersenSpec PedersenProofs PedersenUse.

Lemma is_ok_panic {A} (x : result A) : to_is_ok x = Panic <-> x = Panic.
Proof. destruct x; cbn; split; congruence. Qed.
Lemma store_panics (x : result bool) : convert_result_to_bool (store x) = Panics <-> x = Panic.
Proof. destruct x; cbn; split; congruence. Qed.
Section Panics.
  Context {pr : pairing} (direct composite cip22 : BlsModel.hasher pr).
  (** The random bytes are those [Batch::verify] draws. *)
  Definition drawn (q : batch_message pr * list bytes) : Prop := Z.of_nat (pair_count (fst q)) <= usize_max /\ strict_draw (pair_count (fst q)) (snd q).

  (** *** batch_verify_strict *)
  Lemma slot_panic c f h b rnd : selected direct composite cip22 c f h -> drawn (b, rnd) ->
    (strict_slot direct composite cip22 c f b rnd = Panic <-> h SIG_DOMAIN (bm_data b) (bm_extra b) = Panic) /\
    (forall x, strict_slot direct composite cip22 c f b rnd <> Err x).
  Proof.
    intros S0 [Hn D]. cbn [fst snd] in *. rewrite (slot_sel _ _ _ c f h b rnd S0). split; [|destruct (outcome _); discriminate].
    rewrite is_ok_panic, batch_verify_random_unfold by (apply strict_draw_for; assumption). destruct (strict_entries b) as (_ & -> & ->).
    apply verify_sig_panic.
  Qed.
  Lemma loop_panic c f h bs : selected direct composite cip22 c f h -> Forall drawn bs -> forall acc v,
    (strict_loop direct composite cip22 c f bs acc v = Panic <-> Exists (fun q => h SIG_DOMAIN (bm_data (fst q)) (bm_extra (fst q)) = Panic) bs) /\
    (forall x, strict_loop direct composite cip22 c f bs acc v <> Err x).
  Proof.
    intros S0. induction 1 as [|[b rnd] bs D F IH]; intros acc v; cbn [strict_loop].
    - split; [|discriminate]. split; [discriminate|]. intros K. inversion K.
    - rewrite Exists_cons. cbn [fst]. destruct (slot_panic c f h b rnd S0 D) as [P N]. rewrite <- P.
      destruct (strict_slot direct composite cip22 c f b rnd) as [s|x|]; cbn [rbind].
      + destruct (IH (acc ++ [s]) (if negb s then false else v)) as [A B]. rewrite A. split; [|exact B]. split; [intros K; right; exact K|intros [K|K]; [discriminate K|exact K]].
      + destruct (N x eq_refl).
      + split; [|discriminate]. split; [left; reflexivity|reflexivity].
  Qed.
  Lemma strict_panics c f h bs : selected direct composite cip22 c f h -> Forall drawn bs ->
    ffi_batch_verify_strict direct composite cip22 bs c f = Panics <-> Exists (fun q => h SIG_DOMAIN (bm_data (fst q)) (bm_extra (fst q)) = Panic) bs.
  Proof.
    intros S0 F. destruct (loop_panic c f h bs S0 F [] true) as [A B]. rewrite <- A. unfold ffi_batch_verify_strict.
    destruct (strict_loop direct composite cip22 c f bs [] true) as [[s v]|x|].
    - cbn. destruct v; cbn; split; discriminate.
    - destruct (B x eq_refl).
    - cbn. split; reflexivity.
  Qed.

  (** *** batch_verify_signature *)
  Definition hashed_ok (h : BlsModel.hasher pr) (m : message pr) : Prop := exists P, h SIG_DOMAIN (m_data m) (m_extra m) = Ok P.
  Definition first_panic (h : BlsModel.hasher pr) (ms : list (message pr)) : Prop :=
    exists ms1 m ms2, ms = ms1 ++ m :: ms2 /\ Forall (hashed_ok h) ms1 /\ h SIG_DOMAIN (m_data m) (m_extra m) = Panic.
  Lemma bind_panic {A B} (m : run A) (k : A -> run B) : outcome (bind m k) = Panic <-> outcome m = Panic \/ exists a, outcome m = Ok a /\ outcome (k a) = Panic.
  Proof.
    destruct m as [q [a|x|]]; unfold bind, outcome; cbn.
    - destruct (k a) as [q' y] eqn:E. cbn. split.
      + intros ->. right. exists a. rewrite E. split; reflexivity.
      + intros [K|(a' & K & K')]; [discriminate K|]. inversion K; subst a'. rewrite E in K'. exact K'.
    - split; [discriminate|]. intros [K|(a & K & _)]; discriminate K.
    - split; [left; reflexivity|reflexivity].
  Qed.
  Lemma hash_all_first (h : BlsModel.hasher pr) ms : outcome (hash_all h SIG_DOMAIN (map (fun m => (m_data m, m_extra m)) ms)) = Panic <-> first_panic h ms.
  Proof.
    induction ms as [|m ms IH]; cbn [map hash_all].
    - split; [discriminate|]. intros (ms1 & m & ms2 & E & _). destruct ms1; discriminate E.
    - rewrite bind_panic. change (outcome (do_hash h SIG_DOMAIN (m_data m) (m_extra m))) with (h SIG_DOMAIN (m_data m) (m_extra m)).
      split.
      + intros [K|(P & E & K)]; [|apply bind_panic in K; destruct K as [K|(Ps & _ & K)]; [apply IH in K|]].
        * exists [], m, ms. split; [reflexivity|]. split; [constructor|exact K].
        * destruct K as (ms1 & m' & ms2 & -> & F & K). exists (m :: ms1), m', ms2. split; [reflexivity|]. split; [constructor; [exists P; exact E|exact F]|exact K].
        * discriminate K.
      + intros (ms1 & m' & ms2 & E & F & K). destruct ms1 as [|m1 ms1]; cbn [app] in E; inversion E; subst.
        * left. exact K.
        * right. inversion F as [|? ? (P & EP) F']; subst. exists P. split; [exact EP|]. apply bind_panic. left. apply IH. exists ms1, m', ms2. split; [reflexivity|]. split; assumption.
  Qed.
  Lemma batch_outcome_panic (h : BlsModel.hasher pr) ms s : outcome (batch_verify h s (map m_key ms) SIG_DOMAIN (map (fun m => (m_data m, m_extra m)) ms)) = Panic <-> first_panic h ms.
  Proof.
    unfold batch_verify. rewrite !map_length, Nat.eqb_refl. cbn [negb]. rewrite bind_panic, hash_all_first. split; [|left; assumption].
    intros [K|(Ps & _ & K)]; [exact K|]. unfold batch_verify_hashes in K. destruct (negb _); [discriminate K|]. destruct (pairing_is_one _); discriminate K.
  Qed.
  Lemma batch_panics c f h ms : selected direct composite cip22 c f h ->
    ffi_batch_verify_signature direct composite cip22 ms c f = Panics <-> first_panic h ms.
  Proof.
    intros S0. rewrite <- (batch_outcome_panic h ms (aggregate_sig (map m_sig ms))), <- is_ok_panic, <- store_panics.
    unfold ffi_batch_verify_signature. inversion S0; reflexivity.
  Qed.
  (** *** The order of the messages *)
  Lemma ok_perm (h : BlsModel.hasher pr) ms ms' : Permutation ms ms' ->
    outcome (batch_verify h (aggregate_sig (map m_sig ms)) (map m_key ms) SIG_DOMAIN (map (fun m => (m_data m, m_extra m)) ms)) = Ok tt ->
    outcome (batch_verify h (aggregate_sig (map m_sig ms')) (map m_key ms') SIG_DOMAIN (map (fun m => (m_data m, m_extra m)) ms')) = Ok tt.
  Proof.
    intros P K. pose proof (batch_verify_perm h (aggregate_sig (map m_sig ms)) SIG_DOMAIN _ _ (Permutation_map (fun m => (m_key m, (m_data m, m_extra m))) P)) as B.
    rewrite !map_map in B. cbn [fst snd] in B. specialize (B K).
    unfold aggregate_sig in *. rewrite <- (aggregate_perm _ _ (Permutation_map m_sig P)). exact B.
  Qed.
  Lemma order_free c f ms ms' : Permutation ms ms' ->
    ffi_batch_verify_signature direct composite cip22 ms c f <> Panics -> ffi_batch_verify_signature direct composite cip22 ms' c f <> Panics ->
    ffi_batch_verify_signature direct composite cip22 ms c f = ffi_batch_verify_signature direct composite cip22 ms' c f.
  Proof.
    intros P N N'.
    assert (A : forall h, to_is_ok (outcome (batch_verify h (aggregate_sig (map m_sig ms)) (map m_key ms) SIG_DOMAIN (map (fun m => (m_data m, m_extra m)) ms))) <> Panic ->
      to_is_ok (outcome (batch_verify h (aggregate_sig (map m_sig ms')) (map m_key ms') SIG_DOMAIN (map (fun m => (m_data m, m_extra m)) ms'))) <> Panic ->
      to_is_ok (outcome (batch_verify h (aggregate_sig (map m_sig ms)) (map m_key ms) SIG_DOMAIN (map (fun m => (m_data m, m_extra m)) ms))) =
      to_is_ok (outcome (batch_verify h (aggregate_sig (map m_sig ms')) (map m_key ms') SIG_DOMAIN (map (fun m => (m_data m, m_extra m)) ms')))).
    { intros h K K'. pose proof (ok_perm h ms ms' P) as U. pose proof (ok_perm h ms' ms (Permutation_sym P)) as D.
      destruct (outcome (batch_verify h (aggregate_sig (map m_sig ms)) _ _ _)) as [[]|x|], (outcome (batch_verify h (aggregate_sig (map m_sig ms')) _ _ _)) as [[]|x'|];
        cbn in *; try reflexivity; try (exfalso; apply K; reflexivity); try (exfalso; apply K'; reflexivity).
      - discriminate (U eq_refl).
      - discriminate (D eq_refl). }
    unfold ffi_batch_verify_signature in *. destruct c, f; try reflexivity; rewrite store_panics in N, N'; rewrite (A _ N N'); reflexivity.
  Qed.
End Panics.

(** ** The limit of the Pedersen hash *)
Section Limit.
  Context (pr : pairing) (direct : BlsModel.hasher pr) (of_point : g1_point -> G1 pr) (sqrt : fq -> option fq) (Bs : list ed_grp) (gens : list (list (fq * fq))).
  Context (F : Forall2 window_of Bs gens) (L : length Bs = 560%nat).
  Lemma strict_limit f bs : Forall drawn bs ->
    ffi_batch_verify_strict direct (lib_composite pr of_point sqrt gens) (lib_cip22 pr of_point sqrt gens) bs true f = Panics <->
    Exists (fun q => 19530 < Z.of_nat (length (bm_data (fst q))) + (if f then 0 else 1 + Z.of_nat (length (bm_extra (fst q))))) bs.
  Proof.
    intros D. destruct (selected_exists direct (lib_composite pr of_point sqrt gens) (lib_cip22 pr of_point sqrt gens) f) as [h S0].
    rewrite (strict_panics _ _ _ true f h bs S0 D), !Exists_exists.
    split; intros (q & I & K); exists q; (split; [exact I|]); apply (selected_panics pr direct of_point sqrt Bs gens f h _ _ F L S0); exact K.
  Qed.
  Lemma batch_limit f ms h : selected direct (lib_composite pr of_point sqrt gens) (lib_cip22 pr of_point sqrt gens) true f h ->
    ffi_batch_verify_signature direct (lib_composite pr of_point sqrt gens) (lib_cip22 pr of_point sqrt gens) ms true f = Panics <->
    exists ms1 m ms2, ms = ms1 ++ m :: ms2 /\ Forall (hashed_ok h) ms1 /\
      19530 < Z.of_nat (length (m_data m)) + (if f then 0 else 1 + Z.of_nat (length (m_extra m))).
  Proof.
    intros S0. rewrite (batch_panics _ _ _ true f h ms S0). unfold first_panic.
    split; intros (a & m & b & E & A & K); exists a, m, b; (split; [exact E|]); (split; [exact A|]); apply (selected_panics pr direct of_point sqrt Bs gens f h _ _ F L S0); exact K.
  Qed.
End Limit.

(** Two messages, one of which the hash refuses and one of which makes it panic. *)
Lemma order_panics : exists pr (direct composite cip22 : BlsModel.hasher pr) (ms ms' : list (message pr)), Permutation ms ms' /\
  ffi_batch_verify_signature direct composite cip22 ms false false = Panics /\
  ffi_batch_verify_signature direct composite cip22 ms' false false = Returns true (Some false).
Proof.
  set (h := (fun _ m _ => match m with [] => Err HashToCurveError | _ => Panic end) : BlsModel.hasher zr_pairing).
  exists zr_pairing, h, h, h, [Msg [1] [1] (to_public 1) gz; Msg [] [1] (to_public 1) gz], [Msg [] [1] (to_public 1) gz; Msg [1] [1] (to_public 1) gz].
  split; [apply perm_swap|]. split; reflexivity.
Qed.
