(** From chains of blocks to satisfied circuits, for any witnesses. *)
From Coq Require Import Field Permutation.
From Verif Require Import Base Constants Group Field Curve BlsModel BitsModel BitsProofs EncodingModel EncodingSpec EncodingProofs BatchProofs Blake2 HasherModel HasherSpec HasherProofs PointModel
  HashCurveModel HashCurveSpec PointProofs HashCurveProofs CodecSpec Circuit CircuitFacts GadgetModel GadgetSpec CubeFacts GadgetProofs
  HashGadgetModel HashGadgetSpec HashGadgetProofs HashGadgetNative EpochCircuitModel EpochSpec EpochCircuitSpec EpochProofs EpochCircuitProofs EpochChainProofs ProverModel ProverSpec ProverProofs.
Local Opaque p half.
Add Field Fq2f : fq2_field.

Section Honest.
  Context {E1 E2 GT : grp} (e : E1 -> E2 -> GT) (gen1 : E1) (gen2 : E2).
  Context (of1 : apoint fq -> E1) (of2 : apoint fq2 -> E2) (to1 : E1 -> apoint fq) (to2 : E2 -> apoint fq2).
  Context (sqrt : fq -> option fq) (ped : bytes -> option fq) (compat : bool).
  Context {HP : Type}.
  Notation header_of := (header_of to2).
  Notation coords_of := (coords_of to2).
  Notation good_block := (good_block of2 to2).
  Notation block_hash := (block_hash gen2 of1 to2 sqrt ped compat).
  Implicit Types (b : epoch_block E2) (t : transition E1 E2).

  (** *** With any last coordinate at least the pinned points are accepted *)
  Lemma opens_any pin P bits : opens_to of2 P bits -> opensP of2 pin P bits.
  Proof.
    intros (Q & HQ & H & ->). exists (fst (g2_coords Q)), (snd (g2_coords Q)), (match Q with Some _ => q2_1 | None => q2_0 end). rewrite <- g2_coords_tri.
    split; [rewrite g2_valid_tri; exact HQ|]. split; [destruct (g2_coords Q); exact H|rewrite affine2_tri; reflexivity].
  Qed.
  Lemma point_any pin s : on_g1_point of1 s -> pointP of1 pin s.
  Proof. intros (Q & HQ & ->). exists (tri1 Q). rewrite g1_valid_tri, affine1_tri. auto. Qed.
  Lemma alloc_any (pin : bool) h (v : triple) : holds (alloc_g1 true h) v -> holds (alloc_g1 pin h) v.
  Proof.
    destruct pin; [auto|]. intros X. apply alloc_holds in X. apply alloc_holds. change (g1_valid true v = true) in X. change (g1_valid false v = true).
    apply g1_valid_pinned in X as (Q & HQ & ->). rewrite g1_valid_tri. exact HQ.
  Qed.
  Lemma htg_any (pin : bool) xof (h : E1) : holds (HashGadgetModel.hash_to_group of1 sqrt compat true xof) h -> holds (HashGadgetModel.hash_to_group of1 sqrt compat pin xof) h.
  Proof.
    unfold HashGadgetModel.hash_to_group. destruct (nth_error _ _); [|intros []]. intros X. apply holds_bind in X as (v & X1 & X).
    apply holds_bind. exists v. split; [apply alloc_any, X1|exact X].
  Qed.
  Lemma hashes_any (pin : bool) constrain (h : header E2) (H : E1) : hashesP of1 sqrt ped compat true constrain h H -> hashesP of1 sqrt ped compat pin constrain h H.
  Proof.
    intros (crh & xof & c & Hc & X). exists crh, xof, c. split; [exact Hc|]. unfold enforce_hash_to_group in *.
    apply holds_bind in X as (x & X1 & X). apply holds_bind. exists x. split; [exact X1|].
    apply holds_bind in X as (y & X2 & X). apply holds_bind. exists y. split; [exact X2|].
    apply holds_bind in X as (z & X3 & X). apply holds_bind. exists z. split; [apply htg_any, X3|exact X].
  Qed.

  (** *** Blocks to headers *)
  Lemma header_wf n b : good_block n b -> well_formed (opens_to of2) n (header_of b).
  Proof.
    intros (_ & _ & _ & L & _ & K). split; cbn [ProverSpec.header_of h_keys]; [rewrite map_length; exact L|].
    apply Forall_map. eapply Forall_impl; [|exact K]. intros P [A B]. exists (to2 P). split; [exact A|]. split; [left; reflexivity|symmetry; exact B].
  Qed.
  Lemma header_hash n b H : sqrt_spec qmul sqrt -> of1 None = gz -> negation_law of1 -> good_block n b -> block_hash b H ->
    hashes_to of1 (native_ped ped) compat (header_of b) H.
  Proof.
    intros Hs Z N G X. destruct (hash_prover gen2 of1 of2 to2 sqrt ped compat true n b H true Hs Z N G X) as (crh & xof & R). apply prover_holds in R.
    apply (hashes_pinned of1 sqrt ped compat). apply (hash_bits_holds of1 sqrt ped compat true (header_of b)) in R. exists crh, xof. exact R.
  Qed.
  Lemma header_any n b H : good_block n b -> any_hash gen2 of1 to2 ped b H -> hashes_freely of1 (native_ped ped) compat (header_of b) H.
  Proof.
    intros G (m & x & inner & Q & Em & Ei & HQ & ->). pose proof (header_signed gen2 of2 to2 n b G) as HB.
    unfold encode_inner_to_bytes_cip22 in Em. rewrite <- HB, !pack_u8_native in Em. cbn [rbind] in Em. apply ok_inj, pair_equal_spec in Em as [<- <-].
    unfold native_ped in Ei. destruct (ped _) as [v|] eqn:Ev; [|discriminate].
    apply (hashes_free of1 sqrt ped compat). destruct (free_xof_any_point of1 sqrt ped compat true (byte_bits 8 0) (pack_u8 (signed_bits (header_of b))) (pack_u8 (extra_bits (header_of b))) v Q Ev HQ) as (crh & xof & X).
    exists crh, xof, (byte_bits 8 0). split; [apply byte_bits_length|exact X].
  Qed.

  Lemma honest_inv (hash : epoch_block E2 -> E1 -> Prop) (l : Prop) n b t ts : honest e gen2 of2 to2 hash l n b (t :: ts) -> exists signing H,
    good_block n (t_block t) /\ eb_index (t_block t) = eb_index b + 1 /\
    (l -> entropy_value (eb_parent_entropy (t_block t)) = entropy_value (eb_epoch_entropy b)) /\
    signers (eb_keys b) (t_bitmap t) signing /\ ~ In gen2 signing /\ sum signing <> gz /\
    positions false (t_bitmap t) <= eb_max_non_signers b /\ hash (t_block t) H /\ e (t_signature t) gen2 = e H (sum signing) /\
    honest e gen2 of2 to2 hash l n (t_block t) ts.
  Proof. intros X. inversion X; subst. exists signing, H. auto 12. Qed.
  Lemma honest_chain (hash : epoch_block E2 -> E1 -> Prop) (hashes : header E2 -> E1 -> Prop) (l : Prop) n : linear_at e gen2 ->
    (forall b H, good_block n b -> hash b H -> hashes (header_of b) H) ->
    forall ts b, 0 <= eb_index b -> 0 <= eb_max_non_signers b < half -> honest e gen2 of2 to2 hash l n b ts ->
    exists pairs, chain gen1 gen2 (opens_to of2) hashes l n (committee_of (header_of b)) (map header_of (map t_block ts)) pairs (committee_of (header_of (last_block b ts))) /\
      sum (map (fun '(H, K) => e H K) pairs) = e (sum (map t_signature ts)) gen2 /\ Forall (fun t => good_block n (t_block t) /\ h_index (header_of (t_block t)) <> q0) ts.
  Proof.
    intros B HH ts. induction ts as [|t ts IH]; intros b Ib Mb HO.
    - exists []. split; [constructor|]. split; [|constructor]. cbn [map sum fold_right]. symmetry. apply e_zero_l, B.
    - apply honest_inv in HO as (signing & H & G & I1 & L1 & S1 & N1 & Z1 & M1 & HH1 & V1 & HO).
      assert (N : fq_of (eb_index (t_block t)) <> q0). { eapply (index_nz of2 to2); [exact G|exact Ib|exact I1]. }
      destruct (IH (t_block t)) as (pairs & C & S' & F); [apply G| |assumption|].
      { pose proof (max_range of2 to2 (t_block t) n G) as [_ X]. destruct G as ((_ & _ & M) & _). lia. }
      exists ((H, sum signing) :: pairs). split; [|split].
      + cbn [map]. replace (last_block b (t :: ts)) with (last_block (t_block t) ts).
        2:{ unfold last_block. cbn [map]. destruct (map t_block ts) as [|b0 bs]; [reflexivity|]. change (last (t_block t :: b0 :: bs) b) with (last (b0 :: bs) b). apply last_cons. }
        apply (chain_real gen1 gen2 _ _ l n _ _ (t_bitmap t) signing); try assumption.
        * apply header_wf, G.
        * cbn [committee_of ProverSpec.header_of m_index h_index]. rewrite I1. apply fq_ext. unfold qadd. rewrite !fqv_of. change (fqv q1) with 1. modring. reflexivity.
        * intros X. cbn [committee_of ProverSpec.header_of m_entropy h_entropy h_parent]. unfold entropy_number. rewrite L1 by exact X. reflexivity.
        * split; [|split; [|split; [assumption|]]].
          -- intros E. rewrite E in S1. inversion S1; subst. apply Z1. reflexivity.
          -- cbn [committee_of m_keys ProverSpec.header_of h_keys]. rewrite map_map, map_id. assumption.
          -- cbn [committee_of m_max ProverSpec.header_of h_max]. rewrite fqv_small by (assert (half < 2 ^ 376) by (vm_compute; reflexivity); lia). change ((p - 1) / 2) with half. lia.
        * apply HH; assumption.
      + cbn [map sum fold_right]. change (fold_right ga gz (map (fun '(H0, K) => e H0 K) pairs)) with (sum (map (fun '(H0, K) => e H0 K) pairs)). rewrite S'.
        change (fold_right ga gz (map t_signature ts)) with (sum (map t_signature ts)). rewrite (proj1 B). f_equal. symmetry. assumption.
      + constructor; [split; [exact G|exact N]|exact F].
  Qed.

  Lemma commits_native (b b' : epoch_block E2) x y : to2 (sum (eb_keys b')) = Some (x, y) ->
    exists inputs, public_inputs coords_of gsum gen2 blake2_out b b' = Ok (Some (map fqv inputs)) /\
      commits inputs (map bits_le_val (pack_u8 (encode_to_bits_cip22 coords_of gen2 b First)))
        (map bits_le_val (pack_u8 (encode_to_bits_cip22 coords_of gen2 b' Last ++ encode_coords (x, y)))).
  Proof.
    intros E. eexists. split; [apply native_inputs; exact E|].
    pose proof (edges_prover (fun (_ : unit) _ => true) (mk_bits (encode_to_bits_cip22 coords_of gen2 b First) (encode_to_bits_cip22 coords_of gen2 b' Last ++ encode_coords (x, y)) [] []) None) as X.
    apply prover_holds, edges_holds in X. exact X.
  Qed.
  Context (pin debug : bool) (helper_verify : HP -> list (list bool) -> bool).
  Lemma accepted_from (hash : epoch_block E2 -> E1 -> Prop) n b0 b (h0 : header E2) ts t (w : validator_set_update E1 E2 HP) :
    linear_at e gen2 -> gen2 <> gz -> (forall s, on_g1_point of1 s) -> well_formed (opensP of2 pin) n h0 -> committee_of h0 = committee_of (header_of b0) ->
    first_bits h0 = encode_to_bits_cip22 coords_of gen2 b First -> 0 <= eb_index b0 -> 0 <= eb_max_non_signers b0 < half ->
    (forall b H, good_block n b -> hash b H -> hashes_in of1 ped compat (constrained w) (header_of b) H) ->
    honest e gen2 of2 to2 hash False n b0 (ts ++ [t]) -> (exists c, to2 (sum (eb_keys (t_block t))) = Some c) ->
    sizes n w -> length (vsu_epochs w) = length (ts ++ [t]) ->
    exists inputs, public_inputs coords_of gsum gen2 blake2_out b (t_block t) = Ok (Some (map fqv inputs)) /\
      holds (generate_constraints e gen1 gen2 of1 of2 to1 to2 sqrt ped compat pin debug helper_verify w) inputs.
  Proof.
    intros B Hg HS Wh EC EF Ib RM HH HO ([x y] & Ec) SZ LW. destruct (commits_native b (t_block t) x y Ec) as (inputs & EI & CI). exists inputs. split; [exact EI|].
    destruct (honest_chain hash (hashes_in of1 ped compat (constrained w)) False n B HH (ts ++ [t]) b0) as (pairs & C & SG & F); [exact Ib|exact RM|exact HO|].
    apply (circuit_holds e gen1 gen2 of1 of2 to1 to2 sqrt ped compat pin debug helper_verify n w inputs Hg SZ). apply unlinked_statement.
    assert (Gt : good_block n (t_block t) /\ h_index (header_of (t_block t)) <> q0). { rewrite Forall_forall in F. apply F. apply in_or_app. right. left. reflexivity. }
    destruct Gt as [Gt Nt].
    exists h0, (map header_of (map t_block ts)), (header_of (t_block t)), pairs, (sum (map t_signature (ts ++ [t]))).
    split; [rewrite LW, !app_length, !map_length; reflexivity|].
    split; [exact Wh|split; [|split; [exact Nt|split; [apply point_any, HS|split]]]].
    - rewrite EC. rewrite !map_app in C. cbn [map] in C. replace (last_block b0 (ts ++ [t])) with (t_block t) in C; [|unfold last_block; rewrite map_app; cbn [map]; rewrite last_last; reflexivity].
      revert C. apply chain_mono; [apply opens_any| |tauto]. intros h P X. apply hashes_any. unfold hashes_in in X. destruct (constrained w); [apply hashes_pinned|apply hashes_free]; exact X.
    - apply signed_intro; [exact B|exact SG].
    - exists (encode_coords (x, y)). do 2 eexists. split; [exists (x, y); split; [cbn [ProverSpec.header_of h_keys]; rewrite map_map, map_id; exact Ec|left; reflexivity]|].
      split; [apply pack_u8_native|]. split; [apply pack_u8_native|]. rewrite (header_closing gen2 of2 to2 n _ Gt), EF. exact CI.
  Qed.
  Lemma accepted (hash : epoch_block E2 -> E1 -> Prop) n b M ts t (w : validator_set_update E1 E2 HP) :
    linear_at e gen2 -> gen2 <> gz -> (forall s, on_g1_point of1 s) -> good_block n b -> M mod 2 ^ 32 = eb_max_non_signers b -> 0 <= M < half ->
    (forall b H, good_block n b -> hash b H -> hashes_in of1 ped compat (constrained w) (header_of b) H) ->
    honest e gen2 of2 to2 hash False n (set_max M b) (ts ++ [t]) -> (exists c, to2 (sum (eb_keys (t_block t))) = Some c) ->
    sizes n w -> length (vsu_epochs w) = length (ts ++ [t]) ->
    exists inputs, public_inputs coords_of gsum gen2 blake2_out b (t_block t) = Ok (Some (map fqv inputs)) /\
      holds (generate_constraints e gen1 gen2 of1 of2 to1 to2 sqrt ped compat pin debug helper_verify w) inputs.
  Proof.
    intros B Hg HS Gb EM RM HH HO Ec SZ LW. apply (accepted_from hash n (set_max M b) b (header_of (set_max M b)) ts t w); try assumption; [|reflexivity| |cbn; apply Gb].
    - destruct (header_wf n b Gb) as [W1 W2]. split; [exact W1|]. eapply Forall_impl; [|exact W2]. intros k. apply opens_any.
    - rewrite <- (header_first gen2 of2 to2 n b Gb).
      unfold first_bits, key_bits. cbn [ProverSpec.header_of h_index h_parent h_max h_keys set_max eb_index eb_parent_entropy eb_max_non_signers eb_keys].
      assert (low 32 (fq_of M) = low 32 (fq_of (eb_max_non_signers b))) as ->; [|reflexivity]. apply low_eq.
      assert (half < 2 ^ 376) by (vm_compute; reflexivity). destruct Gb as ((_ & _ & R) & _). rewrite !fqv_small by lia. change (Z.of_nat 32) with 32. rewrite EM. symmetry. apply Z.mod_small. lia.
  Qed.
End Honest.

(** ** Keys when the last projective coordinate is free *)
Section FreeKeys.
  Context {E1 E2 GT : grp} (e : E1 -> E2 -> GT) (gen1 : E1) (gen2 : E2).
  Context (of1 : apoint fq -> E1) (of2 : apoint fq2 -> E2) (to1 : E1 -> apoint fq) (to2 : E2 -> apoint fq2).
  Context (sqrt : fq -> option fq) (ped : bytes -> option fq) (compat : bool) {HP : Type}.
  Lemma opens_free x0 y0 Q : x0 <> q2_0 -> on_twist (Some Q) = true -> snd Q <> q2_0 ->
    opensP of2 false (of2 (Some Q)) (encode_coords (x0, y0)) \/ opensP of2 false (of2 (g2_neg (Some Q))) (encode_coords (x0, y0)).
  Proof.
    intros N0 HQ Ny. destruct Q as [x y]. cbn [snd] in Ny.
    assert (Nx : x <> q2_0) by (intros ->; rewrite x_zero_not_on_twist in HQ; discriminate HQ).
    assert (Dx : q2mul x (q2inv x) = q2_1) by (transitivity (q2mul (q2inv x) x); [ring|]; apply (Finv_l fq2_field), Nx).
    set (W := q2mul x0 (q2inv x)). assert (E : q2mul x W = x0).
    { unfold W. transitivity (q2mul x0 (q2mul x (q2inv x))); [ring|]. rewrite Dx. ring. }
    assert (NW : W <> q2_0). { intros X. rewrite X in E. apply N0. rewrite <- E. ring. }
    assert (NY : q2mul y W <> q2_0). { intros X. apply q2_integral in X as [X|X]; contradiction. }
    assert (A : forall y', on_twist (Some (x, y')) = true -> is_over_half (q2mul y' W) = is_over_half y0 -> opensP of2 false (of2 (Some (x, y'))) (encode_coords (x0, y0))).
    { intros y' Hy' Ey. exists x0, (q2mul y' W), W. split; [|split].
      - rewrite <- E. exact (valid_scaled _ _ _ _ _ _ _ _ _ _ fq2_field q2eqb_spec x y' W NW Hy').
      - left. rewrite !encode_coords_eq, Ey. reflexivity.
      - f_equal. rewrite <- E at 1. symmetry. exact (aff_scaled _ _ _ _ _ _ _ _ _ fq2_field q2eqb_spec x y' W NW). }
    destruct (Bool.bool_dec (is_over_half (q2mul y W)) (is_over_half y0)) as [X|X]; [left; apply A; assumption|right].
    assert (Hn : on_twist (Some (x, q2opp y)) = true). { apply on_twist_spec in HQ. apply on_twist_spec. rewrite <- HQ. ring. }
    apply (A (q2opp y) Hn). replace (q2mul (q2opp y) W) with (q2opp (q2mul y W)) by ring. rewrite is_over_half_opp by exact NY.
    destruct (is_over_half (q2mul y W)), (is_over_half y0); cbn; congruence.
  Qed.
  (** any keys fit the bits of the keys of a block *)
  Lemma substitute (Ks : list E2) (Qs : list g2_point) : length Qs = length Ks ->
    Forall (fun K => to2 K <> None /\ on_twist (to2 K) = true) Ks -> Forall (fun Q => exists q, Q = Some q /\ snd q <> q2_0 /\ on_twist Q = true) Qs ->
    exists Qs', Forall2 (fun Q Q' => Q' = Q \/ Q' = g2_neg Q) Qs Qs' /\
      Forall (fun k => opensP of2 false (fst k) (snd k)) (combine (map of2 Qs') (map (fun K => encode_coords (coords_of to2 K)) Ks)).
  Proof.
    revert Qs. induction Ks as [|K Ks IH]; intros [|Q Qs] L FK FQ; try discriminate L; [exists []; split; constructor|].
    inversion FK as [|? ? [NK HK] FK']; subst. inversion FQ as [|? ? (q & -> & Hq & HQ) FQ']; subst. destruct (IH Qs) as (Qs' & F2 & F); [cbn in L; lia|assumption..|].
    unfold coords_of at 1. destruct (to2 K) as [[x0 y0]|] eqn:EK; [|contradiction].
    assert (N0 : x0 <> q2_0) by (intros ->; rewrite x_zero_not_on_twist in HK; discriminate HK).
    destruct (opens_free x0 y0 q N0 HQ Hq) as [X|X]; [exists (Some q :: Qs')|exists (g2_neg (Some q) :: Qs')]; (split; [constructor; auto|]); cbn [map combine];
      (constructor; [cbn [fst snd]; unfold coords_of; rewrite EK; exact X|exact F]).
  Qed.

  Lemma fst_combine {A B} (l : list A) (m : list B) : length l = length m -> map fst (combine l m) = l.
  Proof. revert m. induction l as [|a l IH]; intros [|x m] L; try discriminate L; [reflexivity|]. cbn [combine map fst]. f_equal. apply IH. cbn in L. lia. Qed.
  Lemma snd_combine {A B} (l : list A) (m : list B) : length l = length m -> map snd (combine l m) = m.
  Proof. revert m. induction l as [|a l IH]; intros [|x m] L; try discriminate L; [reflexivity|]. cbn [combine map snd]. f_equal. apply IH. cbn in L. lia. Qed.
  Lemma forged (debug : bool) (helper_verify : HP -> list (list bool) -> bool) (hash : epoch_block E2 -> E1 -> Prop) n (b : epoch_block E2) (Qs : list g2_point) :
    linear_at e gen2 -> gen2 <> gz -> (forall s, on_g1_point of1 s) -> good_block of2 to2 n b -> Forall (fun K => to2 K <> None) (eb_keys b) ->
    length Qs = n -> Forall (fun Q => exists q, Q = Some q /\ snd q <> q2_0 /\ on_twist Q = true) Qs ->
    exists Qs', Forall2 (fun Q Q' => Q' = Q \/ Q' = g2_neg Q) Qs Qs' /\
      forall ts t (w : validator_set_update E1 E2 HP),
        (forall b H, good_block of2 to2 n b -> hash b H -> hashes_in of1 ped compat (constrained w) (header_of to2 b) H) ->
        honest e gen2 of2 to2 hash False n (set_keys b (map of2 Qs')) (ts ++ [t]) -> (exists c, to2 (sum (eb_keys (t_block t))) = Some c) ->
        sizes n w -> length (vsu_epochs w) = length (ts ++ [t]) ->
        exists inputs, public_inputs (coords_of to2) gsum gen2 blake2_out b (t_block t) = Ok (Some (map fqv inputs)) /\
          holds (generate_constraints e gen1 gen2 of1 of2 to1 to2 sqrt ped compat false debug helper_verify w) inputs.
  Proof.
    intros B Hg HS Gb FK LQ FQ. assert (Lk : length (eb_keys b) = n) by apply Gb. destruct (substitute (eb_keys b) Qs) as (Qs' & F2 & F); [congruence| |exact FQ|].
    { destruct Gb as (_ & _ & _ & _ & _ & K). clear -FK K. induction K as [|x l [A _] _ IH]; [constructor|]. inversion FK; subst. constructor; auto. }
    exists Qs'. split; [exact F2|]. intros ts t w HH HO Ec SZ LW. apply forall2_len in F2 as L2.
    set (bits := map (fun K => encode_coords (coords_of to2 K)) (eb_keys b)) in F.
    assert (Lb : length (map of2 Qs') = length bits) by (unfold bits; rewrite !map_length; transitivity (length Qs); [symmetry; exact L2|]; rewrite LQ; symmetry; exact Lk).
    pose (h0 := mk_header (fq_of (eb_index b)) (fq_of (eb_round b)) (fq_of (eb_max_non_signers b)) (entropy_number (eb_epoch_entropy b)) (entropy_number (eb_parent_entropy b)) (combine (map of2 Qs') bits)).
    apply (accepted_from e gen1 gen2 of1 of2 to1 to2 sqrt ped compat false debug helper_verify hash n (set_keys b (map of2 Qs')) b h0 ts t w); try assumption.
    - split; [|exact F]. unfold h0. cbn [h_keys]. rewrite combine_length, Lb. unfold bits. rewrite map_length, Nat.min_id. exact Lk.
    - unfold committee_of, h0, header_of. cbn [h_keys h_index h_entropy h_max set_keys eb_keys eb_index eb_epoch_entropy eb_max_non_signers]. rewrite fst_combine by exact Lb. f_equal.
      rewrite map_map. cbn [fst]. rewrite map_id. reflexivity.
    - rewrite <- (header_first gen2 of2 to2 n b Gb). unfold first_bits, key_bits, h0, header_of. cbn [h_keys h_index h_parent h_max]. rewrite snd_combine by exact Lb.
      unfold bits. rewrite map_map. reflexivity.
    - cbn. apply Gb.
    - cbn [set_keys eb_max_non_signers]. destruct (max_range of2 to2 b n Gb) as [_ X]. destruct Gb as ((_ & _ & R) & _). lia.
  Qed.
End FreeKeys.
