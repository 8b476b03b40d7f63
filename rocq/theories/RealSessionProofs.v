(** Proofs for C74. *)
From Coq Require Import Permutation FinFun.
From Verif Require Import Base Constants Group Field Curve BlsModel BlsSpec BlsProofs CacheModel CacheSpec CacheProofs PointModel EncodingModel HasherModel HashCurveModel HashCurveSpec HashCurveProofs CodecModel CodecSpec CodecProofs PropCodec
  FfiModel FfiSpec PropFfi FfiDataProofs FfiRestProofs CurveGroups CurveCount CurveOrder TwistOrder TwistCount OrderSpec OrderProofs TwistSpec TwistProofs RealSpec RealModel RealProofs RealBatchSpec RealSessionModel RealSessionSpec.

Lemma returns_inj {A} (a b : A) : Returns true (Some a) = Returns true (Some b) -> a = b.
Proof. intros H. congruence. Qed.
Section Session.
  Context (sqrt2 : fq2 -> option fq2) (fh : fq2 -> Z).
  Hypothesis sqrt2_ok : sqrt_spec q2mul sqrt2.
  Notation E := (real_cache sqrt2 fh).
  Definition reach (c : cache E) : Prop := exists h, Forall fair_op h /\ c = crun h.
  Lemma reach_new : reach cache_new. Proof. exists []. split; [constructor|reflexivity]. Qed.
  Lemma reach_step c o : reach c -> fair_op o -> reach (fst (cstep c o)).
  Proof. intros (h & F & ->) O. exists (h ++ [o]). split; [apply Forall_app; split; [exact F|repeat constructor; exact O]|]. rewrite crun_app. reflexivity. Qed.
  Lemma reach_de c d : reach c -> reach (fst (cache_deserialize c d)).
  Proof. intros R. pose proof (reach_step c (OpDeserialize d) R I) as H. cbn [cstep] in H. destruct (cache_deserialize c d). exact H. Qed.
  Lemma reach_agg c o1 o2 js : reach c -> fair o1 -> fair o2 -> reach (fst (cache_aggregate o1 o2 c js)).
  Proof. intros R F1 F2. pose proof (reach_step c (OpAggregate o1 o2 js) R (conj F1 F2)) as H. cbn [cstep] in H. destruct (cache_aggregate o1 o2 c js). exact H. Qed.

  Lemma take_key_spec c k : reach c -> is_bytes (g_bytes k) = true ->
    reach (fst (take_key c k)) /\ forall J, snd (take_key c k) = Some J <-> exists P, key_bytes (g_bytes k) P /\ J = jac2 P.
  Proof.
    intros R B. destruct k as [[|] l]; unfold take_key; cbn [g_cached g_bytes] in *.
    - pose proof (reach_de c l R) as R'. destruct R as (h & F & ->). pose proof (deserialize_any_history (E := E) h l) as D.
      unfold ffi_deserialize_public_key_cached. destruct (cache_deserialize (crun h) l) as [c' x] eqn:Ec. cbn [fst snd] in *. split; [exact R'|].
      intros J. rewrite D. unfold fresh_decode. cbn [decode real_cache].
      split.
      + intros H. destruct (public_key_deserialize sqrt2 g2_test l) as [P| |] eqn:EP; [|discriminate H|discriminate H].
        exists P. split; [|apply then_some in H as (a & H & H'); cbn in H; congruence].
        unfold key_bytes. apply (read_key_iff sqrt2 sqrt2_ok _ _ B). apply deserialize_iff. exact EP.
      + intros (P & K & ->). apply (read_key_iff sqrt2 sqrt2_ok _ _ B) in K. apply deserialize_iff in K. rewrite K. reflexivity.
    - split; [exact R|]. intros J. cbn [snd]. rewrite then_some. split.
      + intros (P & H & H'). exists P. split; [apply (read_key_iff sqrt2 sqrt2_ok _ _ B), H|congruence].
      + intros (P & H & ->). exists P. split; [apply (read_key_iff sqrt2 sqrt2_ok _ _ B), H|reflexivity].
  Qed.
  Lemma take_keys_spec ks : forall c, reach c -> Forall (fun k => is_bytes (g_bytes k) = true) ks ->
    reach (fst (take_keys c ks)) /\ forall Js, snd (take_keys c ks) = Some Js <-> exists Ps, Forall2 key_bytes (map g_bytes ks) Ps /\ Js = map jac2 Ps.
  Proof.
    induction ks as [|k ks IH]; intros c R B.
    - split; [exact R|]. intros Js. cbn [take_keys snd map]. split.
      + intros H. exists []. split; [constructor|cbn [map]; congruence].
      + intros (Ps & F & ->). inversion F. reflexivity.
    - pose proof (Forall_inv B) as B1. pose proof (Forall_inv_tail B) as B2. destruct (take_key_spec c k R B1) as (R1 & S1). cbn [take_keys map].
      destruct (take_key c k) as [c1 [J|]]; cbn [fst snd] in *.
      + destruct (IH c1 R1 B2) as (R2 & S2). destruct (take_keys c1 ks) as [c2 x]; cbn [fst snd] in *. split; [exact R2|]. destruct (proj1 (S1 J) eq_refl) as (P & KP & ->). intros Js. split.
        * intros H. destruct x as [Js'|]; [|discriminate H]. destruct (proj1 (S2 Js') eq_refl) as (Ps & F & ->). exists (P :: Ps). split; [constructor; assumption|]. cbn [option_map map] in *. congruence.
        * intros (Ps & F & ->). inversion F as [|? P' ? Ps' K' F']; subst. rewrite (proj2 (S2 (map jac2 Ps'))) by (exists Ps'; split; [exact F'|reflexivity]). cbn [option_map map].
          assert (jac2 P = jac2 P') as ->; [|reflexivity]. pose proof (proj2 (S1 (jac2 P')) (ex_intro _ P' (conj K' eq_refl))). congruence.
      + split; [exact R1|]. intros Js. split; [intros H; discriminate H|]. intros (Ps & F & ->). inversion F as [|? P' ? Ps' K' F']; subst.
        pose proof (proj2 (S1 (jac2 P')) (ex_intro _ P' (conj K' eq_refl))) as H. discriminate H.
  Qed.
  (** Sums *)
  Lemma to2_add (P Q : sub g2_curve) : to2 (ga P Q) = g2_add (to2 P) (to2 Q).
  Proof. exact (g2_to_add (sub_val P) (sub_val Q)). Qed.
  Lemma to2_sum Ds : Forall in_g2 Ds -> to2 (total (map of2 Ds)) = fold_right g2_add None Ds.
  Proof.
    induction 1 as [|P Ds I F IH]; [reflexivity|]. cbn [map total fold_right]. rewrite <- IH, to2_add, (to2_of2 P I). reflexivity.
  Qed.
  Lemma in_keys ls Ps : Forall2 key_bytes ls Ps -> Forall in_g2 Ps.
  Proof. induction 1 as [|l P ls Ps (_ & _ & I) F IH]; constructor; assumption. Qed.
  Lemma distinct_sum Ps (T : sub g2_curve) : Forall in_g2 Ps ->
    (set_sum (E := E) (map jac2 Ps) T <-> exists D, NoDup D /\ (forall Q, In Q D <-> In Q Ps) /\ to2 T = fold_right g2_add None D).
  Proof.
    intros FI. split.
    - intros (D & N & M & ->). exists (map jac2_point D).
      assert (EQ : map jac2 (map jac2_point D) = D).
      { rewrite map_map. rewrite <- (map_id D) at 2. apply map_ext_in. intros J H. apply M, in_map_iff in H as (P & <- & _). rewrite jac2_pt. reflexivity. }
      assert (MM : forall Q, In Q (map jac2_point D) <-> In Q Ps).
      { intros Q. rewrite in_map_iff. split.
        - intros (J & <- & H). apply M, in_map_iff in H as (P & <- & H). rewrite jac2_pt. exact H.
        - intros H. exists (jac2 Q). split; [apply jac2_pt|]. apply M, in_map, H. }
      split; [|split; [exact MM|]].
      + rewrite <- EQ in N. apply NoDup_map_inv in N. exact N.
      + rewrite <- to2_sum; [|apply Forall_forall; intros Q H; apply (proj1 (Forall_forall _ _) FI), MM, H]. f_equal. rewrite <- (sum_keys sqrt2 fh), EQ. reflexivity.
    - intros (D & N & M & ET). exists (map jac2 D). split; [apply FinFun.Injective_map_NoDup; [exact jac2_inj|exact N]|]. split.
      + intros J. rewrite !in_map_iff. split; intros (P & H & K); exists P; (split; [exact H|apply M, K]).
      + rewrite (sum_keys sqrt2 fh). apply to2_inj. rewrite ET, to2_sum; [reflexivity|]. apply Forall_forall. intros Q H. apply (proj1 (Forall_forall _ _) FI), M, H.
  Qed.
  Lemma write_key_iff (x : reply (sub g2_curve)) out : write_key x = Some out <-> exists P, x = Returns true (Some P) /\ out = public_key_serialize (to2 P).
  Proof. unfold write_key. rewrite then_some. split; intros (P & H & K); exists P; (split; [exact H|apply serialized, K]). Qed.
  Lemma sum_bytes ks Ps (T : sub g2_curve) : Forall2 key_bytes (map g_bytes ks) Ps -> set_sum (E := E) (map jac2 Ps) T -> sum_of_distinct ks (to2 T).
  Proof. intros F H. apply (distinct_sum _ _ (in_keys _ _ F)) in H as (D & N & M & EQ). exists Ps, D. repeat split; try assumption; apply M. Qed.
  Lemma key_bytes_unique l P P' : is_bytes l = true -> key_bytes l P -> key_bytes l P' -> P = P'.
  Proof. intros B H H'. apply (read_key_iff sqrt2 sqrt2_ok _ _ B) in H, H'. congruence. Qed.
  Lemma keys_unique ks Ps Ps' : Forall (fun k => is_bytes (g_bytes k) = true) ks -> Forall2 key_bytes (map g_bytes ks) Ps -> Forall2 key_bytes (map g_bytes ks) Ps' -> Ps = Ps'.
  Proof.
    intros B H. revert Ps'. remember (map g_bytes ks) as ls eqn:El. revert ks B El. induction H as [|l P ls Ps K H IH]; intros ks B El Ps' H'; inversion H'; [reflexivity|]; subst.
    destruct ks as [|k ks]; [discriminate El|]. cbn [map] in El. assert (l = g_bytes k) as -> by congruence. assert (EL : ls = map g_bytes ks) by congruence.
    f_equal; [exact (key_bytes_unique _ _ _ (Forall_inv B) K H2)|]. exact (IH ks (Forall_inv_tail B) EL _ H4).
  Qed.
  Lemma sum_point ks Ps P : Forall (fun k => is_bytes (g_bytes k) = true) ks -> Forall2 key_bytes (map g_bytes ks) Ps -> sum_of_distinct ks P -> exists T : sub g2_curve, P = to2 T /\ set_sum (E := E) (map jac2 Ps) T.
  Proof.
    intros B F (Ps' & D & F' & N & M & ->). rewrite (keys_unique _ _ _ B F' F) in *. pose proof (in_keys _ _ F) as FI. exists (total (map of2 D)).
    assert (FD : Forall in_g2 D) by (apply Forall_forall; intros Q H; apply (proj1 (Forall_forall _ _) FI), M, H).
    split; [symmetry; apply to2_sum, FD|]. apply (distinct_sum _ _ FI). exists D. split; [exact N|]. split; [exact M|]. apply to2_sum, FD.
  Qed.

  Lemma serve_spec c q : reach c -> proper q -> reach (fst (serve c q)) /\ forall out, snd (serve c q) = Some out <-> owed q out.
  Proof.
    intros R PQ. destruct q as [o1 o2 ks|o1 o2 a ks]; cbn [serve proper owed] in *.
    - destruct PQ as (F1 & F2 & B). destruct (take_keys_spec ks c R B) as (R1 & S1). destruct (take_keys c ks) as [c1 [Js|]]; cbn [fst snd] in *.
      + destruct (proj1 (S1 Js) eq_refl) as (Ps & F & ->). pose proof (reach_agg c1 o1 o2 (map jac2 Ps) R1 F1 F2) as R2. destruct R1 as (h & Fh & ->).
        pose proof (fun P => aggregate_spec h o1 o2 (map jac2 Ps) P Fh F1 F2) as AS. unfold ffi_aggregate_public_keys in *. destruct (cache_aggregate o1 o2 (crun h) (map jac2 Ps)) as [c2 T]. cbn [fst snd] in *.
        split; [exact R2|]. intros out. rewrite write_key_iff. split.
        * intros (P & H & ->). exists (to2 P). split; [|reflexivity]. apply (sum_bytes ks Ps P F), AS, H.
        * intros (P & H & ->). destruct (sum_point ks Ps P B F H) as (T' & -> & HT). exists T'. split; [apply AS, HT|reflexivity].
      + split; [exact R1|]. intros out. split; [intros H; discriminate H|]. intros (P & (Ps & D & F & _) & _). pose proof (proj2 (S1 (map jac2 Ps)) (ex_intro _ Ps (conj F eq_refl))) as H. discriminate H.
    - destruct PQ as (F1 & F2 & Ba & B). destruct (take_key_spec c a R Ba) as (R0 & S0). destruct (take_key c a) as [c0 [J|]]; cbn [fst snd] in *.
      2:{ split; [exact R0|]. intros out. split; [intros H; discriminate H|]. intros (A & _ & _ & K & _). pose proof (proj2 (S0 (jac2 A)) (ex_intro _ A (conj K eq_refl))) as H. discriminate H. }
      destruct (proj1 (S0 J) eq_refl) as (A & KA & ->). destruct (take_keys_spec ks c0 R0 B) as (R1 & S1). destruct (take_keys c0 ks) as [c1 [Js|]]; cbn [fst snd] in *.
      + destruct (proj1 (S1 Js) eq_refl) as (Ps & F & ->). pose proof (reach_agg c1 o1 o2 (map jac2 Ps) R1 F1 F2) as R2. destruct R1 as (h & Fh & ->).
        pose proof (subtract_spec h o1 o2 (jac2 A) (map jac2 Ps) Fh F1 F2) as (T & ST & AS). unfold ffi_aggregate_public_keys_subtract in *. destruct (cache_aggregate o1 o2 (crun h) (map jac2 Ps)) as [c2 T']. cbn [fst snd] in *.
        split; [exact R2|]. intros out. rewrite AS, write_key_iff. cbn [pt real_cache]. rewrite jac2_pt. pose proof KA as (_ & _ & IA).
        assert (EA : forall P : sub g2_curve, ga P T = of2 A <-> P = ga (of2 A) (gn T)).
        { intros P. split; [intros <-; rewrite <- ga_assoc, (ga_comm _ T), gn_l, ga_0_r; reflexivity|intros ->; rewrite <- ga_assoc, gn_l, ga_0_r; reflexivity]. }
        split.
        * intros (P & H & ->). exists A, (to2 T), (to2 P). split; [exact KA|]. split; [apply (sum_bytes ks Ps T F ST)|]. split; [apply to2_in|]. split; [|reflexivity].
          pose proof (eq_sym (returns_inj _ _ H)) as EP. apply EA in EP. rewrite <- to2_add, EP. exact (to2_of2 A IA).
        * intros (A' & P & Q & KA' & SP & IQ & EQ & ->). rewrite (key_bytes_unique _ _ _ Ba KA' KA) in *. destruct (sum_point ks Ps P B F SP) as (T1 & -> & HT). rewrite (set_sum_unique _ _ _ HT ST) in *.
          exists (of2 Q). rewrite (to2_of2 Q IQ). split; [|reflexivity]. assert (of2 Q = ga (of2 A) (gn T)) as ->; [|reflexivity]. apply EA. apply to2_inj. rewrite (to2_of2 A IA), <- EQ, to2_add, (to2_of2 Q IQ). reflexivity.
      + split; [exact R1|]. intros out. split; [intros H; discriminate H|]. intros (_ & P & _ & _ & (Ps & D & F & _) & _). pose proof (proj2 (S1 (map jac2 Ps)) (ex_intro _ Ps (conj F eq_refl))) as H. discriminate H.
  Qed.
  Lemma reach_after qs : Forall proper qs -> reach (after qs).
  Proof.
    intros F. unfold after. assert (R := reach_new). revert R. generalize (cache_new (E := E)). induction F as [|q qs PQ F IH]; intros c R; [exact R|]. cbn [fold_left]. apply IH. apply serve_spec; assumption.
  Qed.
  Lemma answers_owed qs : forall c, reach c -> Forall proper qs -> Forall2 (fun q x => forall out, x = Some out <-> owed q out) qs (answers c qs).
  Proof.
    induction qs as [|q qs IH]; intros c R F; [constructor|]. cbn [answers]. destruct (serve_spec c q R (Forall_inv F)) as (R' & S'). destruct (serve c q) as [c' x]. cbn [fst snd] in *.
    constructor; [exact S'|]. apply IH; [exact R'|exact (Forall_inv_tail F)].
  Qed.
  Lemma serve_owed qs (q : request sqrt2 fh) out : Forall proper qs -> proper q -> (snd (serve (after qs) q) = Some out <-> owed q out).
  Proof. intros F PQ. apply serve_spec; [apply reach_after, F|exact PQ]. Qed.

  (** ** Other calls coming in between *)
  Lemma reach_meanwhile h : forall c, reach c -> Forall fair_op h -> reach (meanwhile c h).
  Proof. unfold meanwhile. induction h as [|o h IH]; intros c R F; [exact R|]. cbn [fold_left]. apply IH; [apply reach_step; [exact R|exact (Forall_inv F)]|exact (Forall_inv_tail F)]. Qed.
  Lemma take_keys_amid_spec ks : forall c, reach c -> Forall (fun k => Forall fair_op (fst k) /\ is_bytes (g_bytes (snd k)) = true) ks ->
    reach (fst (take_keys_amid c ks)) /\ forall c' : cache E, reach c' -> snd (take_keys_amid c ks) = snd (take_keys c' (map snd ks)).
  Proof.
    induction ks as [|[h k] ks IH]; intros c R B; [split; [exact R|reflexivity]|]. destruct (Forall_inv B) as [Fh B1]. pose proof (Forall_inv_tail B) as B2. cbn [fst snd] in *.
    destruct (take_key_spec _ k (reach_meanwhile h c R Fh) B1) as (R1 & S1). cbn [take_keys_amid map take_keys snd].
    destruct (take_key (meanwhile c h) k) as [c1 [J|]]; cbn [fst snd] in *.
    - destruct (IH c1 R1 B2) as (R2 & S2). destruct (take_keys_amid c1 ks) as [c2 x]; cbn [fst snd] in *. split; [exact R2|]. intros c' R'.
      destruct (take_key_spec c' k R' B1) as (R1' & S1'). destruct (take_key c' k) as [c1' [J'|]]; cbn [fst snd] in *.
      + rewrite (S2 c1' R1'). destruct (take_keys c1' (map snd ks)) as [c2' x']. cbn [snd]. assert (J = J') as ->; [|reflexivity]. pose proof (proj2 (S1' J) (proj1 (S1 J) eq_refl)). congruence.
      + pose proof (proj2 (S1' J) (proj1 (S1 J) eq_refl)) as K. discriminate K.
    - split; [exact R1|]. intros c' R'. destruct (take_key_spec c' k R' B1) as (R1' & S1'). destruct (take_key c' k) as [c1' [J'|]]; cbn [fst snd] in *; [|reflexivity].
      pose proof (proj2 (S1 J') (proj1 (S1' J') eq_refl)) as K. discriminate K.
  Qed.
  Lemma aggregate_amid_spec o1 o2 c ks h out : reach c -> fair o1 -> fair o2 -> Forall (fun k => Forall fair_op (fst k) /\ is_bytes (g_bytes (snd k)) = true) ks -> Forall fair_op h ->
    (aggregate_amid o1 o2 c ks h = Some out <-> owed (Aggregate (sqrt2 := sqrt2) (fh := fh) o1 o2 (map snd ks)) out).
  Proof.
    intros R F1 F2 B Fh. destruct (take_keys_amid_spec ks c R B) as (R1 & S1). assert (B' : Forall (fun k => is_bytes (g_bytes k) = true) (map snd ks)) by (apply Forall_map; revert B; apply Forall_impl; intros k H; apply H).
    rewrite <- (serve_owed [] (Aggregate o1 o2 (map snd ks)) out (Forall_nil _) (conj F1 (conj F2 B'))). cbn [after fold_left serve]. unfold after, aggregate_amid. cbn [fold_left].
    pose proof (S1 _ reach_new) as EQ. destruct (take_keys_spec (map snd ks) _ reach_new B') as (R2 & _). destruct (take_keys_amid c ks) as [c1 x]. destruct (take_keys cache_new (map snd ks)) as [c2 x']. cbn [fst snd] in *. subst x'.
    destruct x as [Js|]; [|reflexivity]. destruct (reach_meanwhile h c1 R1 Fh) as (h1 & Fh1 & ->). destruct R2 as (h2 & Fh2 & ->).
    assert (EA : snd (ffi_aggregate_public_keys o1 o2 (crun h1) Js) = snd (ffi_aggregate_public_keys o1 o2 (crun h2) Js)).
    { pose proof (aggregate_any_history h2 o1 o2 Js Fh2 F1 F2) as SS. rewrite (proj2 (aggregate_spec h1 o1 o2 Js _ Fh1 F1 F2) SS), (proj2 (aggregate_spec h2 o1 o2 Js _ Fh2 F1 F2) SS). reflexivity. }
    rewrite EA. destruct (ffi_aggregate_public_keys o1 o2 (crun h2) Js). reflexivity.
  Qed.
  Lemma subtract_amid_spec o1 o2 c a ks h out : reach c -> fair o1 -> fair o2 -> Forall (fun k => Forall fair_op (fst k) /\ is_bytes (g_bytes (snd k)) = true) (a :: ks) -> Forall fair_op h ->
    (subtract_amid o1 o2 c a ks h = Some out <-> owed (Subtract (sqrt2 := sqrt2) (fh := fh) o1 o2 (snd a) (map snd ks)) out).
  Proof.
    intros R F1 F2 BB Fh. destruct (Forall_inv BB) as [Fa Ba]. pose proof (Forall_inv_tail BB) as B. assert (B' : Forall (fun k => is_bytes (g_bytes k) = true) (map snd ks)) by (apply Forall_map; revert B; apply Forall_impl; intros k H; apply H).
    rewrite <- (serve_owed [] (Subtract o1 o2 (snd a) (map snd ks)) out (Forall_nil _) (conj F1 (conj F2 (conj Ba B')))). cbn [after fold_left serve]. unfold after, subtract_amid. cbn [fold_left].
    destruct (take_key_spec _ (snd a) (reach_meanwhile (fst a) c R Fa) Ba) as (R0 & S0). destruct (take_key_spec _ (snd a) reach_new Ba) as (R0' & S0').
    destruct (take_key (meanwhile c (fst a)) (snd a)) as [c0 [J|]], (take_key cache_new (snd a)) as [c0' [J'|]]; cbn [fst snd] in *;
      [|pose proof (proj2 (S0' J) (proj1 (S0 J) eq_refl)) as K; discriminate K|pose proof (proj2 (S0 J') (proj1 (S0' J') eq_refl)) as K; discriminate K|reflexivity].
    assert (J = J') as -> by (pose proof (proj2 (S0' J) (proj1 (S0 J) eq_refl)); congruence).
    destruct (take_keys_amid_spec ks c0 R0 B) as (R1 & S1). pose proof (S1 _ R0') as EQ. destruct (take_keys_spec (map snd ks) _ R0' B') as (R2 & _).
    destruct (take_keys_amid c0 ks) as [c1 x]. destruct (take_keys c0' (map snd ks)) as [c2 x']. cbn [fst snd] in *. subst x'.
    destruct x as [Js|]; [|reflexivity]. destruct (reach_meanwhile h c1 R1 Fh) as (h1 & Fh1 & ->). destruct R2 as (h2 & Fh2 & ->).
    assert (EA : snd (ffi_aggregate_public_keys_subtract o1 o2 (crun h1) J' Js) = snd (ffi_aggregate_public_keys_subtract o1 o2 (crun h2) J' Js)).
    { destruct (subtract_spec h1 o1 o2 J' Js Fh1 F1 F2) as (Q1 & SS1 & ->), (subtract_spec h2 o1 o2 J' Js Fh2 F1 F2) as (Q2 & SS2 & ->). rewrite (set_sum_unique _ _ _ SS1 SS2). reflexivity. }
    rewrite EA. destruct (ffi_aggregate_public_keys_subtract o1 o2 (crun h2) J' Js). reflexivity.
  Qed.

  (** ** Only the first 96 bytes of each key count, and which keys there are *)
  Lemma key_bytes_first l P : key_bytes (firstn 96 l) P <-> key_bytes l P.
  Proof.
    unfold key_bytes. rewrite firstn_firstn, Nat.min_id, firstn_length. split; intros (N & W & I); (split; [|split; [exact W|exact I]]).
    - apply (Nat.le_trans _ _ _ N), Nat.le_min_r.
    - apply Nat.min_glb; [apply Nat.le_refl|exact N].
  Qed.
  Lemma points_in ls Ps P : Forall (fun l => is_bytes l = true) ls -> Forall2 key_bytes ls Ps -> (In P Ps <-> exists b, In b (map (firstn 96) ls) /\ key_bytes b P).
  Proof.
    intros B F. induction F as [|l Q ls Ps K F IH].
    - split; [intros []|intros (b & [] & _)].
    - rewrite map_cons. cbn [In]. rewrite (IH (Forall_inv_tail B)). split.
      + intros [<- |(b & H & K')]; [exists (firstn 96 l); split; [left; reflexivity|apply key_bytes_first, K]|exists b; split; [right; exact H|exact K']].
      + intros (b & [<- |H] & K'); [left; apply (proj1 (key_bytes_first _ _)) in K'; exact (key_bytes_unique _ _ _ (Forall_inv B) K K')|right; exists b; split; assumption].
  Qed.
  Lemma points_exist ls : (forall b, In b (map (firstn 96) ls) -> exists P, key_bytes b P) -> exists Ps, Forall2 key_bytes ls Ps.
  Proof.
    induction ls as [|l ls IH]; intros H; [exists []; constructor|]. destruct IH as (Ps & F); [intros b K; apply H; rewrite map_cons; right; exact K|].
    destruct (H (firstn 96 l)) as (P & K); [rewrite map_cons; left; reflexivity|]. exists (P :: Ps). constructor; [apply key_bytes_first, K|exact F].
  Qed.
  Lemma points_of ls Ps b : Forall2 key_bytes ls Ps -> In b (map (firstn 96) ls) -> exists P, key_bytes b P.
  Proof.
    induction 1 as [|l P ls Ps K F IH]; [intros []|]. rewrite map_cons. intros [<- |H]; [exists P; apply key_bytes_first, K|exact (IH H)].
  Qed.
  Lemma parts ks : map key_part ks = map (firstn 96) (map g_bytes ks).
  Proof. rewrite map_map. reflexivity. Qed.
  Lemma bytes_of ks : Forall (fun k => is_bytes (g_bytes k) = true) ks -> Forall (fun l => is_bytes l = true) (map g_bytes ks).
  Proof. intros H. apply Forall_map. exact H. Qed.
  Lemma same_sum ks ks' P : Forall (fun k => is_bytes (g_bytes k) = true) ks -> Forall (fun k => is_bytes (g_bytes k) = true) ks' -> same_keys ks ks' -> sum_of_distinct ks P -> sum_of_distinct ks' P.
  Proof.
    intros B B' SK (Ps & D & F & N & M & EP). unfold same_keys in SK. rewrite !parts in SK. destruct (points_exist (map g_bytes ks')) as (Ps' & F'); [intros b H; apply SK in H; exact (points_of _ _ _ F H)|].
    exists Ps', D. split; [exact F'|]. split; [exact N|]. split; [|exact EP]. intros Q. rewrite M, (points_in _ _ _ (bytes_of _ B) F), (points_in _ _ _ (bytes_of _ B') F').
    split; intros (b & H & K); exists b; (split; [apply SK, H|exact K]).
  Qed.
  Lemma sum_in ks P : sum_of_distinct ks P -> in_g2 P.
  Proof.
    intros (Ps & D & F & _ & M & ->). rewrite <- to2_sum; [apply to2_in|]. apply Forall_forall. intros Q H. apply (proj1 (Forall_forall _ _) (in_keys _ _ F)), M, H.
  Qed.
  Lemma minus_exists A P : in_g2 A -> in_g2 P -> exists Q, in_g2 Q /\ g2_add Q P = A.
  Proof.
    intros IA IP. exists (to2 (ga (of2 A) (gn (of2 P)))). split; [apply to2_in|]. rewrite <- (to2_of2 P IP) at 2. rewrite <- to2_add, <- ga_assoc, gn_l, ga_0_r. exact (to2_of2 A IA).
  Qed.
  Lemma sum_exists ks Ps : Forall2 key_bytes (map g_bytes ks) Ps -> exists P, sum_of_distinct ks P.
  Proof.
    intros F. assert (FO : fair (E := E) (fun l => l)) by (intros l; apply Permutation_refl).
    pose proof (aggregate_any_history (E := E) [] (fun l => l) (fun l => l) (map jac2 Ps) (Forall_nil _) FO FO) as H. eexists. exact (sum_bytes ks Ps _ F H).
  Qed.
  Definition readable (l : bytes) : Prop := exists P, key_bytes l P.
  Lemma all_readable ks : Forall (fun k => readable (g_bytes k)) ks <-> exists Ps, Forall2 key_bytes (map g_bytes ks) Ps.
  Proof.
    split.
    - induction 1 as [|k ks (P & K) F (Ps & IH)]; [exists []; constructor|]. exists (P :: Ps). constructor; assumption.
    - intros (Ps & F). induction ks as [|k ks IH] in Ps, F |- *; [constructor|]. inversion F as [|? P ? Ps' K F']; subst. constructor; [exists P; exact K|exact (IH _ F')].
  Qed.
  Lemma owed_iff_readable (q : request sqrt2 fh) :
    (exists out, owed q out) <-> match q with Aggregate _ _ ks => Forall (fun k => readable (g_bytes k)) ks | Subtract _ _ a ks => readable (g_bytes a) /\ Forall (fun k => readable (g_bytes k)) ks end.
  Proof.
    destruct q as [o1 o2 ks|o1 o2 a ks]; cbn [owed]; rewrite all_readable; split.
    - intros (out & P & (Ps & D & F & _) & _). exists Ps. exact F.
    - intros (Ps & F). destruct (sum_exists ks Ps F) as (P & H). exists (public_key_serialize P), P. split; [exact H|reflexivity].
    - intros (out & A & P & Q & KA & (Ps & D & F & _) & _). split; [exists A; exact KA|exists Ps; exact F].
    - intros ((A & KA) & Ps & F). destruct (sum_exists ks Ps F) as (P & H). pose proof KA as (_ & _ & IA). destruct (minus_exists A P IA (sum_in _ _ H)) as (Q & IQ & EQ).
      exists (public_key_serialize Q), A, P, Q. repeat split; try assumption; apply KA.
  Qed.
  Lemma same_answer qs qs' o1 o2 o1' o2' ks ks' : Forall proper qs -> Forall proper qs' -> proper (Aggregate (sqrt2 := sqrt2) (fh := fh) o1 o2 ks) -> proper (Aggregate (sqrt2 := sqrt2) (fh := fh) o1' o2' ks') -> same_keys ks ks' ->
    snd (serve (after qs) (Aggregate o1 o2 ks)) = snd (serve (after qs') (Aggregate o1' o2' ks')).
  Proof.
    intros F F' PQ PQ' SK. pose proof (fun out => serve_owed qs _ out F PQ) as H. pose proof (fun out => serve_owed qs' _ out F' PQ') as H'.
    assert (EO : forall out, owed (Aggregate (sqrt2 := sqrt2) (fh := fh) o1 o2 ks) out <-> owed (Aggregate (sqrt2 := sqrt2) (fh := fh) o1' o2' ks') out).
    { destruct PQ as (_ & _ & B), PQ' as (_ & _ & B'). intros out. cbn [owed]. split; intros (P & SP & EP); exists P; (split; [|exact EP]); [exact (same_sum _ _ _ B B' SK SP)|]. apply (same_sum ks' ks P B' B); [|exact SP]. intros b. symmetry. apply SK. }
    destruct (snd (serve (after qs) (Aggregate o1 o2 ks))) as [out|].
    - symmetry. apply H', EO, H. reflexivity.
    - destruct (snd (serve (after qs') (Aggregate o1' o2' ks'))) as [out|]; [|reflexivity]. apply H, EO, H'. reflexivity.
  Qed.
  Lemma same_difference qs qs' o1 o2 o1' o2' a a' ks ks' : Forall proper qs -> Forall proper qs' -> proper (Subtract (sqrt2 := sqrt2) (fh := fh) o1 o2 a ks) -> proper (Subtract (sqrt2 := sqrt2) (fh := fh) o1' o2' a' ks') ->
    key_part a = key_part a' -> same_keys ks ks' -> snd (serve (after qs) (Subtract o1 o2 a ks)) = snd (serve (after qs') (Subtract o1' o2' a' ks')).
  Proof.
    intros F F' PQ PQ' EK SK. pose proof (fun out => serve_owed qs _ out F PQ) as H. pose proof (fun out => serve_owed qs' _ out F' PQ') as H'.
    assert (EA : forall A, key_bytes (g_bytes a) A <-> key_bytes (g_bytes a') A) by (intros A; rewrite <- key_bytes_first, <- (key_bytes_first (g_bytes a')); unfold key_part in EK; rewrite EK; reflexivity).
    assert (EO : forall out, owed (Subtract (sqrt2 := sqrt2) (fh := fh) o1 o2 a ks) out <-> owed (Subtract (sqrt2 := sqrt2) (fh := fh) o1' o2' a' ks') out).
    { destruct PQ as (_ & _ & _ & B), PQ' as (_ & _ & _ & B'). intros out. cbn [owed].
      split; intros (A & P & Q & KA & SP & RQ); exists A, P, Q; (split; [apply EA, KA|split; [|exact RQ]]); [exact (same_sum _ _ _ B B' SK SP)|]. apply (same_sum ks' ks P B' B); [|exact SP]. intros b. symmetry. apply SK. }
    destruct (snd (serve (after qs) (Subtract o1 o2 a ks))) as [out|].
    - symmetry. apply H', EO, H. reflexivity.
    - destruct (snd (serve (after qs') (Subtract o1' o2' a' ks'))) as [out|]; [|reflexivity]. apply H, EO, H'. reflexivity.
  Qed.
  Lemma subtract_answered qs o1 o2 a ks : Forall proper qs -> proper (Subtract (sqrt2 := sqrt2) (fh := fh) o1 o2 a ks) ->
    ((exists out, snd (serve (after qs) (Subtract o1 o2 a ks)) = Some out) <-> Forall (fun k => exists P, key_bytes (g_bytes k) P) (a :: ks)).
  Proof.
    intros F PQ. transitivity (exists out, owed (Subtract (sqrt2 := sqrt2) (fh := fh) o1 o2 a ks) out); [split; intros (out & H); exists out; apply (serve_owed qs _ _ F PQ), H|].
    rewrite (owed_iff_readable (Subtract o1 o2 a ks)), Forall_cons_iff. reflexivity.
  Qed.
  Lemma aggregate_answered qs o1 o2 ks : Forall proper qs -> proper (Aggregate (sqrt2 := sqrt2) (fh := fh) o1 o2 ks) ->
    ((exists out, snd (serve (after qs) (Aggregate o1 o2 ks)) = Some out) <-> Forall (fun k => exists P, key_bytes (g_bytes k) P) ks).
  Proof.
    intros F PQ. transitivity (exists out, owed (Aggregate (sqrt2 := sqrt2) (fh := fh) o1 o2 ks) out); [split; intros (out & H); exists out; apply (serve_owed qs _ _ F PQ), H|].
    exact (owed_iff_readable (Aggregate o1 o2 ks)).
  Qed.
  (** ** Subtracting *)
  Lemma key_bytes_ser P rest : in_g2 P -> is_bytes rest = true -> is_bytes (public_key_serialize P ++ rest) = true /\ key_bytes (public_key_serialize P ++ rest) P.
  Proof.
    intros I B. assert (BB : is_bytes (public_key_serialize P ++ rest) = true).
    { unfold is_bytes. rewrite forallb_app. apply andb_true_iff. split; [|exact B]. unfold public_key_serialize, affine_serialize. destruct P as [[X Y]|]; apply fq2_write_is_bytes. }
    split; [exact BB|]. apply (read_key_iff sqrt2 sqrt2_ok _ _ BB). apply (read_key_ser sqrt2 sqrt2_ok); assumption.
  Qed.
  Lemma g2_cancel Q P P' : in_g2 Q -> in_g2 P -> in_g2 P' -> g2_add Q P = g2_add Q P' -> P = P'.
  Proof.
    intros IQ IP IP' H. rewrite <- (to2_of2 Q IQ), <- (to2_of2 P IP), <- (to2_of2 P' IP'), <- !to2_add in H. apply to2_inj in H.
    apply (f_equal (fun z => ga (gn (of2 Q)) z)) in H. rewrite !ga_assoc, gn_l, !ga_0_l in H. rewrite <- (to2_of2 P IP), <- (to2_of2 P' IP'), H. reflexivity.
  Qed.
  Lemma g2_zero_r Q : in_g2 Q -> g2_add Q None = Q.
  Proof. intros I. rewrite <- (to2_of2 Q I). change None with (to2 gz). rewrite <- to2_add, ga_0_r. reflexivity. Qed.
  Lemma single_sum k P : is_bytes (g_bytes k) = true -> sum_of_distinct [k] P -> key_bytes (g_bytes k) P.
  Proof.
    intros B (Ps & D & F & N & M & ->). cbn [map] in F. inversion F as [|? K ? Ps' KK F']; subst. inversion F'; subst.
    assert (D = [K]) as ->.
    { destruct D as [|Q [|Q' D]]; [destruct (proj2 (M K) (or_introl eq_refl))|destruct (proj1 (M Q) (or_introl eq_refl)) as [-> |[]]; reflexivity|].
      exfalso. destruct (proj1 (M Q) (or_introl eq_refl)) as [E1|[]], (proj1 (M Q') (or_intror (or_introl eq_refl))) as [E2|[]]. apply NoDup_cons_iff in N as [N _]. apply N. left. congruence. }
    cbn [fold_right]. rewrite g2_zero_r by apply KK. exact KK.
  Qed.
  Lemma subtract_again qs qs' o1 o2 o1' o2' a k b rest out : Forall proper qs -> Forall proper qs' -> proper (Subtract (sqrt2 := sqrt2) (fh := fh) o1 o2 a [k]) -> fair (E := E) o1' -> fair (E := E) o2' -> is_bytes rest = true ->
    ~ wire_g2 (number (key_part k)) None -> snd (serve (after qs) (Subtract o1 o2 a [k])) = Some out ->
    exists out', snd (serve (after qs') (Subtract o1' o2' (Given b (out ++ rest)) [k])) = Some out' /\ out' <> out.
  Proof.
    intros F F' PQ F1 F2 BR NI H. apply (serve_owed qs _ _ F PQ) in H as (A & P & Q & KA & SP & IQ & EQ & ->). destruct PQ as (_ & _ & BA & BK).
    pose proof (single_sum k P (Forall_inv BK) SP) as KP. destruct (key_bytes_ser Q rest IQ BR) as (BB & KQ). destruct (minus_exists Q P IQ (proj2 (proj2 KP))) as (Q' & IQ' & EQ').
    exists (public_key_serialize Q'). split.
    - apply serve_owed; [exact F'|repeat split; assumption|]. exists Q, P, Q'. repeat split; try assumption; apply KQ.
    - intros EE. destruct (key_bytes_ser Q [] IQ eq_refl) as (B1 & K1). destruct (key_bytes_ser Q' [] IQ' eq_refl) as (B2 & K2). rewrite EE in K2. pose proof (key_bytes_unique _ _ _ B1 K1 K2) as <-.
      assert (P = None) as ->; [|apply NI, (proj1 (proj2 KP))]. apply (g2_cancel Q); [exact IQ|apply KP|exists 0; split; [split; [apply Z.le_refl|reflexivity]|reflexivity]|]. rewrite EQ', g2_zero_r by exact IQ. reflexivity.
  Qed.
End Session.
(** ** The keys of those who did not sign *)
Section Signers.
  Context (GT : grp) (e : g1_point -> g2_point -> GT) (L : bilinear e).
  Context (compat : bool) (ped : bytes -> result bytes) (sqrt : fq -> option fq) (sqrt2 : fq2 -> option fq2).
  Hypothesis ped_bytes : forall m out, ped m = Ok out -> is_bytes out = true.
  Hypothesis sqrt_ok : sqrt_spec qmul sqrt.
  Hypothesis sqrt2_ok : sqrt_spec q2mul sqrt2.
  Context (fh : fq2 -> Z).
  Notation E := (real_cache sqrt2 fh).
  Notation verify := (c_verify GT e L compat ped sqrt sqrt2).
  Lemma total_perm {G : grp} (l l' : list G) : Permutation l l' -> total l = total l'.
  Proof. intros H. rewrite !total_gsum. exact (gsum_perm _ _ H). Qed.
  Lemma nodup_right {T} (l l' : list T) : NoDup (l ++ l') -> NoDup l'.
  Proof. induction l as [|a l IH]; [exact (fun H => H)|]. intros H. apply NoDup_cons_iff in H as [_ H]. exact (IH H). Qed.
  Lemma forall_bytes ls : forallb is_bytes ls = true <-> Forall (fun l => is_bytes l = true) ls.
  Proof. rewrite forallb_forall, Forall_forall. reflexivity. Qed.
  Lemma read_points ls Ps : Forall (fun l => is_bytes l = true) ls -> (Forall2 (fun l P => read_key sqrt2 l = Returns true (Some P)) ls Ps <-> Forall2 key_bytes ls Ps).
  Proof.
    intros B. split; intros F; induction F as [|l P ls Ps K F IH]; constructor; try (apply IH; exact (Forall_inv_tail B)); apply (read_key_iff sqrt2 sqrt2_ok _ _ (Forall_inv B)), K.
  Qed.
  Lemma signers_c qs qs' o1 o2 o1' o2' all absent present sigs b rest apk m x c f :
    Forall proper qs -> Forall proper qs' -> proper (Aggregate (sqrt2 := sqrt2) (fh := fh) o1 o2 all) -> fair (E := E) o1' -> fair (E := E) o2' -> is_bytes rest = true ->
    Forall (fun k => is_bytes (g_bytes k) = true) absent -> forallb is_bytes present = true -> forallb is_bytes sigs = true ->
    NoDup (map key_part all) -> Forall (fun k => ~ wire_g2 (number (key_part k)) None) all ->
    Permutation (map key_part all) (map (firstn 96) present ++ map key_part absent) -> present <> [] ->
    Forall2 (fun pk sig => verify pk sig m x c f = Some true) present sigs ->
    snd (serve (after qs) (Aggregate o1 o2 all)) = Some apk ->
    exists spk asig, snd (serve (after qs') (Subtract o1' o2' (Given b (apk ++ rest)) absent)) = Some spk /\ c_aggregate GT e L sqrt sigs = Some asig /\ verify spk asig m x c f = Some true.
  Proof.
    intros F F' PQ F1 F2 BR BA BP BS ND NI PM NE V H. apply (serve_owed sqrt2 fh sqrt2_ok qs _ _ F PQ) in H as (A & (Pa & D & FA & N & M & EA) & ->). destruct PQ as (_ & _ & BL).
    assert (IA : in_g2 A) by (apply (sum_in all); exists Pa, D; repeat split; try assumption; apply M).
    assert (exists H, hashed compat ped sqrt c f SIG_DOMAIN m x H) as (H & HH).
    { destruct V as [|pk sig pks sigs V _]; [contradiction|]. cbn [forallb] in BP, BS. apply andb_true_iff in BP as [B1 _], BS as [B2 _].
      destruct (verify_parts GT e L compat ped sqrt sqrt2 ped_bytes sqrt_ok sqrt2_ok _ _ _ _ _ _ B1 B2 V) as (sk & H & _ & HH & _). exists H. exact HH. }
    destruct (verified_list GT e L compat ped sqrt sqrt2 ped_bytes sqrt_ok sqrt2_ok _ _ _ _ _ _ _ HH BP BS V) as (Ps & Ss & R1 & R2 & R3).
    apply forall_bytes in BP. apply (read_points _ _ BP) in R1.
    assert (BPA : Forall (fun l => is_bytes l = true) (present ++ map g_bytes absent)) by (apply Forall_app; split; [exact BP|apply bytes_of, BA]).
    assert (PM' : Permutation (map (firstn 96) (map g_bytes all)) (map (firstn 96) (present ++ map g_bytes absent))) by (rewrite map_app, <- !parts; exact PM).
    destruct (points_exist (map g_bytes absent)) as (Pn & FN).
    { intros l K. apply (points_of _ _ _ FA). apply (Permutation_in l (Permutation_sym PM')). rewrite map_app. apply in_or_app. right. exact K. }
    assert (FP : Forall2 key_bytes (present ++ map g_bytes absent) (Ps ++ Pn)) by (apply Forall2_app; assumption).
    assert (NP : NoDup (Ps ++ Pn)).
    { apply (distinct_keys sqrt2 sqrt2_ok (present ++ map g_bytes absent)); [apply forall_bytes, BPA|apply (read_points _ _ BPA), FP| |].
      - apply Forall_forall. intros l K. assert (K' : In (firstn 96 l) (map key_part all)) by (rewrite parts; apply (Permutation_in _ (Permutation_sym PM')), in_map, K).
        apply in_map_iff in K' as (k & <- & K'). exact (proj1 (Forall_forall _ _) NI k K').
      - apply (Permutation_NoDup PM'). rewrite <- parts. exact ND. }
    assert (PD : Permutation D (Ps ++ Pn)).
    { apply NoDup_Permutation; [exact N|exact NP|]. intros Q. rewrite M, (points_in sqrt2 sqrt2_ok _ _ _ (bytes_of _ BL) FA), (points_in sqrt2 sqrt2_ok _ _ _ BPA FP).
      split; intros (l & K & K'); exists l; (split; [|exact K']); [exact (Permutation_in l PM' K)|exact (Permutation_in l (Permutation_sym PM') K)]. }
    pose proof (in_keys _ _ R1) as I1. pose proof (in_keys _ _ FN) as I2. assert (I3 : Forall in_g2 (Ps ++ Pn)) by (apply Forall_app; split; assumption).
    assert (I4 : Forall in_g2 D) by (apply (Permutation_Forall (Permutation_sym PD)), I3).
    destruct (key_bytes_ser sqrt2 sqrt2_ok A rest IA BR) as (BB & KA).
    exists (public_key_serialize (to2 (total (map of2 Ps)))). eexists. split; [|split; [apply (aggregate_sigs_c GT e L sqrt sigs Ss _ R2); reflexivity|]].
    - apply (serve_owed sqrt2 fh sqrt2_ok); [exact F'|repeat split; assumption|]. exists A, (to2 (total (map of2 Pn))), (to2 (total (map of2 Ps))).
      split; [exact KA|]. split; [|split; [apply to2_in|split; [|reflexivity]]].
      + exists Pn, Pn. split; [exact FN|]. split; [|split; [reflexivity|apply to2_sum, I2]]. exact (nodup_right _ _ NP).
      + rewrite <- to2_add, EA, <- (to2_sum D I4), <- total_app, <- map_app. f_equal. apply total_perm, Permutation_map, Permutation_sym, PD.
    - apply (accept_points GT e L compat ped sqrt sqrt2 ped_bytes sqrt_ok sqrt2_ok _ _ _ _ H _ _ HH). apply (signature_on_total (pr := real_pairing GT e L) (of1 H) (map of2 Ps) (map of1 Ss)).
      assert (EL : length Ps = length (map of2 Ps)) by (symmetry; apply map_length). rewrite EL in R3. exact R3.
  Qed.
End Signers.
