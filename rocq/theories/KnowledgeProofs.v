(** Proofs for C77. *)
From Verif Require Import Base Constants Group Field Curve BlsModel BitsModel BitsProofs EncodingModel EncodingSpec EncodingProofs BatchProofs Blake2 HasherModel HasherSpec HasherProofs PointModel
  HashCurveModel HashCurveSpec PointProofs HashCurveProofs CodecSpec Circuit CircuitFacts GadgetModel GadgetSpec CubeFacts GadgetProofs
  HashGadgetModel HashGadgetSpec HashGadgetProofs HashGadgetNative EpochCircuitModel EpochSpec EpochCircuitSpec EpochProofs EpochCircuitProofs EpochChainProofs KnowledgeSpec.
Local Open Scope circ_scope.
Local Opaque p half.

(** ** Assignments *)
Lemma sat_bind {A B} (c : circ A) (f : A -> circ B) : forall w y, satisfies (cbind c f) w y <-> exists w1 w2 x, w = w1 ++ w2 /\ satisfies c w1 x /\ satisfies (f x) w2 y.
Proof.
  induction c as [a|T h k IH|b k IH|e]; intros w y; cbn [cbind satisfies].
  - split; [intros H; exists [], w, a; auto|]. intros (w1 & w2 & x & -> & [-> ->] & H). exact H.
  - split.
    + intros (v & w' & -> & H). apply IH in H as (w1 & w2 & x & -> & H1 & H2). exists (the v :: w1), w2, x. split; [reflexivity|]. split; [exists v, w1; auto|exact H2].
    + intros (w1 & w2 & x & -> & (v & w' & -> & H1) & H2). exists v, (w' ++ w2). split; [reflexivity|]. apply IH. exists w', w2, x. auto.
  - rewrite IH. split; [intros (Hb & w1 & w2 & x & E & H1 & H2)|intros (w1 & w2 & x & E & (Hb & H1) & H2)].
    + exists w1, w2, x. auto.
    + split; [exact Hb|]. exists w1, w2, x. auto.
  - split; [tauto|]. intros (w1 & w2 & x & _ & [] & _).
Qed.
Lemma sat_holds {A} (c : circ A) : forall w x, satisfies c w x -> holds c x.
Proof.
  induction c as [a|T h k IH|b k IH|e]; intros w x; cbn [satisfies holds].
  - intros [_ H]. exact H.
  - intros (v & w' & _ & H). exists v. exact (IH v w' x H).
  - intros [Hb H]. split; [exact Hb|exact (IH w x H)].
  - intros [].
Qed.
Lemma holds_sat {A} (c : circ A) x : holds c x -> exists w, satisfies c w x.
Proof.
  induction c as [a|T h k IH|b k IH|e]; cbn [satisfies holds].
  - intros H. exists []. auto.
  - intros (v & H). destruct (IH v H) as [w W]. exists (the v :: w), v, w. auto.
  - intros [Hb H]. destruct (IH H) as [w W]. exists w. auto.
  - intros [].
Qed.
Lemma sat_witness {T} (h : synth T) w v : satisfies (witness h) w v -> w = [the v].
Proof. cbn [satisfies witness]. intros (v' & w' & -> & -> & ->). reflexivity. Qed.
Lemma sat_sound {proof} (accepts : proof -> list Z -> Prop) c extract : extractable accepts c extract -> forall q inputs, accepts q inputs -> exists xs, inputs = map fqv xs /\ holds c xs.
Proof. intros X q inputs A. destruct (X q inputs A) as (xs & E & H). exists xs. split; [exact E|exact (sat_holds _ _ _ H)]. Qed.

(** ** Points *)
Lemma sat_g1 h w t : satisfies (alloc_g1 true h) w t -> g1_valid true t = true /\ In (the t) w.
Proof.
  unfold alloc_g1, alloc_point. intros H. split; [exact (proj1 (alloc_g1_holds true h t) (sat_holds _ _ _ H))|].
  apply sat_bind in H as (w1 & w2 & t' & -> & H1 & H2). apply sat_witness in H1. subst w1.
  apply sat_bind in H2 as (w3 & w4 & u & -> & _ & H2). cbn [satisfies] in H2. destruct H2 as [_ <-]. apply in_or_app. left. left. reflexivity.
Qed.
Lemma sat_g2 h w t : satisfies (alloc_g2 true h) w t -> g2_valid true t = true /\ In (the t) w.
Proof.
  unfold alloc_g2, alloc_point. intros H. split; [exact (proj1 (alloc_g2_holds true h t) (sat_holds _ _ _ H))|].
  apply sat_bind in H as (w1 & w2 & t' & -> & H1 & H2). apply sat_witness in H1. subst w1.
  apply sat_bind in H2 as (w3 & w4 & u & -> & _ & H2). cbn [satisfies] in H2. destruct H2 as [_ <-]. apply in_or_app. left. left. reflexivity.
Qed.
Section More.
  Context {E1 E2 : grp} (of1 : apoint fq -> E1) (of2 : apoint fq2 -> E2).
  Lemma g2_more w w' k : incl w w' -> contains_g2 of2 w k -> contains_g2 of2 w' k.
  Proof. intros I (Q & O & E & C). exists Q. auto. Qed.
  Lemma header_more w w' h : incl w w' -> contains_header of2 w h -> contains_header of2 w' h.
  Proof.
    intros I [F K]. split.
    - eapply Forall_impl; [|exact F]. cbv beta. intros v H. apply I, H.
    - eapply Forall_impl; [|exact K]. intros k. apply g2_more, I.
  Qed.
  Lemma headers_more w w' hs : incl w w' -> Forall (contains_header of2 w) hs -> Forall (contains_header of2 w') hs.
  Proof. intros I. apply Forall_impl. intros h. apply header_more, I. Qed.
End More.
Lemma in_l {A} (l l' : list A) : incl l (l ++ l'). Proof. apply incl_appl, incl_refl. Qed.
Lemma in_r {A} (l l' : list A) : incl l (l' ++ l). Proof. apply incl_appr, incl_refl. Qed.

Section Epochs.
  Context {E1 E2 GT : grp} (e : E1 -> E2 -> GT) (gen1 : E1) (gen2 : E2).
  Context (of1 : apoint fq -> E1) (of2 : apoint fq2 -> E2) (to1 : E1 -> apoint fq) (to2 : E2 -> apoint fq2).
  Context (sqrt : fq -> option fq) (ped : bytes -> option fq) (compat debug : bool).
  Context {HP : Type} (helper_verify : HP -> list (list bool) -> bool).
  Notation to_bits := (to_bits of2 to2 true).
  Notation constrain_update := (constrain_update gen2 of1 of2 to2 sqrt ped compat true debug).
  Notation epochs_loop := (epochs_loop gen1 gen2 of1 of2 to2 sqrt ped compat true debug).
  Notation circuit := (generate_constraints e gen1 gen2 of1 of2 to1 to2 sqrt ped compat true debug helper_verify).
  Notation opensP := (opensP of2 true).
  Notation hashP := (hashP of1 sqrt ped compat true).
  Notation hashesP := (hashesP of1 sqrt ped compat true).
  Notation chainP := (chain gen1 gen2 opensP).
  Notation within := (contains_header of2).

  Lemma sat_key k w P b : satisfies (key_var of2 to2 true k) w (P, b) -> contains_g2 of2 w P.
  Proof.
    unfold key_var. intros H. apply sat_bind in H as (w1 & w2 & [[X Y] W] & -> & H1 & H2). apply sat_g2 in H1 as [V I].
    apply sat_bind in H2 as (w3 & w4 & bits & -> & _ & H2). cbn [satisfies] in H2. destruct H2 as [_ H2]. apply (f_equal fst) in H2. unfold fst in H2. rewrite <- H2.
    apply g2_valid_pinned in V as (Q & O & E). exists Q. rewrite E in I. rewrite E, affine2_tri. split; [exact O|]. split; [reflexivity|]. apply in_or_app. left. exact I.
  Qed.
  Lemma sat_keys ks : forall w out, satisfies (cmap (key_var of2 to2 true) ks) w out -> Forall (contains_g2 of2 w) (map fst out).
  Proof.
    induction ks as [|k ks IH]; intros w out H; cbn [cmap] in H.
    - cbn [satisfies] in H. destruct H as [_ <-]. constructor.
    - apply sat_bind in H as (w1 & w2 & [P b] & -> & H1 & H2). apply sat_bind in H2 as (w3 & w4 & out' & -> & H2 & H3). cbn [satisfies] in H3. destruct H3 as [-> <-].
      apply sat_key in H1. apply IH in H2. cbn [map fst]. constructor; [exact (g2_more of2 _ _ _ (in_l _ _) H1)|].
      rewrite app_nil_r. eapply Forall_impl; [|exact H2]. intros k'. apply g2_more, in_r.
  Qed.
  Lemma sat_to_bits d w v : satisfies (to_bits d) w v -> exists h, well_formed opensP (length (ed_keys d)) h /\ v = vars_of h /\ within w h.
  Proof.
    unfold EpochCircuitModel.to_bits. intros H.
    apply sat_bind in H as (w1 & w' & i & -> & H1 & H). apply sat_witness in H1. subst w1.
    apply sat_bind in H as (w2 & w'' & r & -> & H1 & H). apply sat_witness in H1. subst w2.
    apply sat_bind in H as (w3 & w' & m & -> & H1 & H). apply sat_witness in H1. subst w3.
    apply sat_bind in H as (w4 & w'' & en & -> & H1 & H). apply sat_witness in H1. subst w4.
    apply sat_bind in H as (w5 & w' & pa & -> & H1 & H). apply sat_witness in H1. subst w5.
    apply sat_bind in H as (w6 & w'' & ks & -> & Hk & H). cbn [satisfies] in H. destruct H as [-> H].
    pose proof (proj1 (keys_holds of2 to2 true _ _) (sat_holds _ _ _ Hk)) as W. apply sat_keys in Hk.
    rewrite !fr_to_bits_low in H by (unfold ENTROPY_BYTES; lia). exists (mk_header i r m en pa ks). split; [exact W|]. split; [rewrite <- H; reflexivity|].
    cbn [app]. split.
    - cbn [h_index h_round h_max h_entropy h_parent]. repeat (apply Forall_cons; [cbn [In]; auto 10|]). constructor.
    - cbn [h_keys]. eapply Forall_impl; [|exact Hk]. intros k. apply g2_more. rewrite app_nil_r. do 5 apply incl_tl. apply incl_refl.
  Qed.
  Lemma sat_update u c ebit n constrain w v out apk : Z.of_nat n < p -> length (ed_keys (su_data u)) = n -> length (su_bitmap u) = n -> length (c_keys c) = n ->
    satisfies (constrain_update u c ebit (Z.of_nat n) constrain) w (v, out, apk) ->
    exists h bitmap signing, well_formed opensP n h /\ v = vars_of h /\ (h_index h <> q0 -> h_index h = qadd (c_index c) q1) /\
      (h_index h <> q0 -> ebit = true -> h_parent h = c_entropy c) /\ hashP constrain h out /\ quorum gen2 (cm c) bitmap signing /\ apk = sum signing /\ within w h.
  Proof.
    intros Hn Lk Lb Lc. unfold EpochCircuitModel.constrain_update. rewrite Lk, Z.eqb_refl. cbn [negb]. unfold constrain_data.
    intros H. apply sat_bind in H as (w1 & w2 & [v' [[H' crh] xof]] & -> & Hd & H). apply sat_bind in Hd as (w3 & w4 & v'' & -> & Hv & Hd). apply sat_to_bits in Hv as (h & Hw & -> & KN).
    apply sat_holds in Hd, H. apply holds_bind in Hd as (u1 & Hi & Hd). pose proof (proj1 (next_epoch_holds _ _ _) Hi) as Hi'. clear Hi. rename Hi' into Hi. apply holds_bind in Hd as (o & Ho & Hd). cbn [holds] in Hd.
    apply (hash_bits_holds of1 sqrt ped compat true h) in Ho. injection Hd as <- ->.
    apply holds_bind in H as (z & Hz & H). apply eq_zero_bit in Hz. subst z. apply holds_bind in H as (u2 & He & H). pose proof (proj1 (cond_equal_holds _ _ _ _) He) as He'. clear He. rename He' into He.
    apply holds_bind in H as (bitmap & Hb & H). apply constrain_bool_holds in Hb. apply holds_bind in H as ([h' apk'] & Hq & H).
    unfold enforce_bitmap in Hq. apply holds_bind in Hq as (u3 & Hm & Hq). destruct u3. apply bitmap_holds in Hm; [|rewrite Hb, Lb; exact Hn].
    apply holds_bind in Hq as (a & Ha & Hq). cbn [holds] in Hq. injection Hq as <- <-. cbn [holds] in H. injection H as <- <- <-.
    apply aggregated_holds in Ha as (l & Hl & Hpad & ->). rewrite Lk in Hw. exists h, bitmap, l. split; [exact Hw|]. split; [reflexivity|]. split; [exact Hi|].
    split. { intros N E. symmetry. apply He. cbn [v_index vars_of]. rewrite E, andb_true_r. apply nz_bit, N. }
    split; [exact Ho|]. split; [destruct Hm; repeat split; try assumption; apply H0|]. split; [reflexivity|]. rewrite <- app_assoc. exact (header_more of2 _ _ _ (in_l _ _) KN).
  Qed.
  Lemma sat_loop epochs n constrain ebit : Z.of_nat n < p -> Forall (shape n) epochs -> forall c w last crh xof apks hs,
    length (c_keys c) = n -> satisfies (epochs_loop epochs c ebit (Z.of_nat n) constrain) w (last, crh, xof, apks, hs) ->
    exists headers pairs c', length headers = length epochs /\ chainP (hashesP constrain) (ebit = true) n (cm c) headers pairs c' /\
      apks = map snd pairs /\ hs = map fst pairs /\ closed to2 headers c' last /\ Forall (within w) headers.
  Proof.
    intros Hn Hs. induction Hs as [|u rest [S1 S2] _ IH]; intros c w last crh xof apks hs Lc H; cbn [EpochCircuitModel.epochs_loop] in H.
    - cbn [satisfies] in H. destruct H as [-> H]. injection H as <- <- <- <- <-. exists [], [], (cm c). repeat split; constructor.
    - apply sat_bind in H as (w1 & w' & [[v [[H' crh0] xof0]] agg] & -> & Hu & H).
      apply sat_update in Hu; try assumption. destruct Hu as (h & bm & l & Hw & -> & Hi & He & Hh & Hq & -> & KN).
      apply sat_bind in H as (w2 & w'' & z & -> & Hz & H). apply sat_holds in Hz. apply eq_zero_bit in Hz. subst z. cbn [v_index v_entropy v_max v_keys vars_of] in H.
      rewrite next_eq in H by (rewrite Lc; apply Hw).
      apply sat_bind in H as (w3 & w' & apk & -> & Ha & H). apply sat_holds in Ha. apply prepare_g2_holds in Ha as [Hnz ->].
      apply sat_bind in H as (w4 & w''' & h1 & -> & Hp & H). apply sat_holds in Hp. cbn [prepare_g1 holds] in Hp. subst h1.
      apply sat_bind in H as (w5 & w' & lb & -> & Hlb & H). apply sat_holds in Hlb. apply sat_bind in H as (w6 & w7 & [[[[last' crhs] xofs] apks'] hs'] & -> & Hrest & H).
      cbn [satisfies] in H. destruct H as [-> H]. injection H as <- <- <- <- <-.
      destruct (IH (next h c) w6 last' crhs xofs apks' hs' (next_len of2 true _ _ _ Hw Lc) Hrest) as (headers & pairs & c' & L & Hc & -> & -> & Hl & KR).
      exists (h :: headers), (((if negb (qeqb (h_index h) q0) then H' else gen1), (if negb (qeqb (h_index h) q0) then sum l else gen2)) :: pairs), c'.
      split; [cbn [length]; rewrite L; reflexivity|]. split; [|split; [reflexivity|split; [reflexivity|split]]].
      + rewrite next_cm in Hc. destruct (negb (qeqb (h_index h) q0)) eqn:B.
        * apply nz_bit in B. eapply chain_real; eauto. exists crh0, xof0. exact Hh.
        * apply negb_false_iff, qeqb_spec in B. eapply chain_dummy; eauto. exists crh0, xof0. exact Hh.
      + destruct rest as [|u' rest].
        * destruct headers; [|discriminate L]. inversion Hc; subst. apply last_bits_holds in Hlb. cbn [closed]. exists [], h. split; [reflexivity|exact Hlb].
        * destruct headers as [|h1 headers]; [discriminate L|]. cbn [closed] in Hl |- *. destruct Hl as (pre & h' & E & X). exists (h :: pre), h'. rewrite E. auto.
      + constructor; [exact (header_more of2 _ _ _ (in_l _ _) KN)|]. eapply headers_more; [|exact KR]. intros x Hx. rewrite !in_app_iff. auto 12.
  Qed.

  Lemma sat_circuit n w tape inputs : gen2 <> gz -> sizes n w -> satisfies (circuit w) tape inputs ->
    exists h0 headers last pairs s, length (headers ++ [last]) = length (vsu_epochs w) /\
      epoch_assignment e gen1 gen2 to2 opensP (hashesP (constrained w)) (pointP of1 true) (h_entropy h0 <> q0) n inputs h0 headers last pairs s /\
      within tape h0 /\ Forall (within tape) (headers ++ [last]) /\ contains_g1 of1 tape s.
  Proof.
    intros Hg (Sn & Hn & Ne & L0 & Hs). unfold EpochCircuitModel.generate_constraints, enforce_epochs.
    intros H. apply sat_bind in H as (w1 & w2 & b & -> & Hb & H). apply sat_holds in H. apply edges_holds in H.
    apply sat_bind in Hb as (w3 & w4 & v0 & -> & Hv & Hb). apply sat_to_bits in Hv as (h0 & Hw & -> & K0). rewrite L0 in Hw.
    apply sat_bind in Hb as (w5 & w6 & [[[[last crh] xof] apks] hs] & -> & Hl & Hb). unfold verify_intermediate_epochs in Hl.
    apply sat_bind in Hl as (w7 & w8 & z & -> & Hz & Hl). apply sat_holds in Hz. apply eq_zero_bit in Hz. subst z. cbn [vars_of v_entropy v_keys v_index v_max v_first] in *. rewrite Sn in Hl.
    apply sat_bind in Hb as (w9 & w10 & u & -> & Hsig & Hb). cbn [satisfies] in Hb. destruct Hb as [-> Hb]. subst b. cbn [b_first b_last] in H.
    set (c0 := mk_carried (map fst (h_keys h0)) (h_index h0) (h_entropy h0) (h_max h0)) in *.
    destruct (sat_loop (vsu_epochs w) n (constrained w) (negb (qeqb (h_entropy h0) q0)) Hn Hs c0 w8 last crh xof apks hs ltac:(unfold c0; cbn [c_keys]; rewrite map_length; apply Hw) Hl)
      as (headers & pairs & c' & Lh & Hc & -> & -> & Hcl & KH).
    destruct headers as [|h1 headers]; [destruct (vsu_epochs w); [congruence|discriminate Lh]|]. cbn [closed] in Hcl. destruct Hcl as (pre & h & Eh & Hend). rewrite Eh in *.
    destruct Hend as (Nz & x & y & bits & Et & Henc & ->).
    unfold verify_signature in Hsig. apply sat_bind in Hsig as (w11 & w12 & t & -> & Ht & Hsig). apply sat_g1 in Ht as [Ht IN]. apply sat_holds in Hsig. apply prepared_holds in Hsig; [|exact Hg]. rewrite combine_pairs in Hsig.
    pose proof (chain_last _ _ _ _ _ _ _ _ _ _ _ _ Hc Nz) as Ec. subst c'. cbn [committee_of m_keys] in Et.
    exists h0, pre, h, pairs, (of1 (affine1 t)). split; [exact Lh|]. split; [|split; [|split]].
    - split; [exact Hw|]. split.
      { eapply chain_weaken; [|exact Hc]. intros X. apply nz_bit, X. }
      split; [exact Nz|]. split; [exists t; auto|]. split; [exact Hsig|].
      exists bits. do 2 eexists. split; [exists (x, y); auto|]. split; [apply pack_u8_native|]. split; [apply pack_u8_native|]. exact H.
    - apply (header_more of2 w3); [|exact K0]. intros c C. rewrite !in_app_iff. auto.
    - apply (headers_more of2 w8); [|exact KH]. intros c C. rewrite !in_app_iff. auto.
    - apply g1_valid_pinned in Ht as (Q & O & ->). exists Q. rewrite affine1_tri. split; [exact O|]. split; [reflexivity|].
      change (In (the (tri1 Q)) (((w3 ++ (w7 ++ w8) ++ (w11 ++ w12) ++ []) ++ w2))). rewrite !in_app_iff. auto 10.
  Qed.
End Epochs.
