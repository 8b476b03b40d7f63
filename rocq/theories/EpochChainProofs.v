(** Chains of headers: consequences, and the pinned circuit. *)
From Coq Require Import Field Permutation.
From Verif Require Import Base Constants Group Field Curve BlsModel BitsModel BitsProofs EncodingModel EncodingSpec EncodingProofs BatchProofs Blake2 HasherModel HasherSpec HasherProofs PointModel
  HashCurveModel HashCurveSpec PointProofs HashCurveProofs CodecSpec Circuit CircuitFacts GadgetModel GadgetSpec CubeFacts GadgetProofs
  HashGadgetModel HashGadgetSpec HashGadgetProofs HashGadgetNative EpochCircuitModel EpochSpec EpochCircuitSpec EpochProofs EpochCircuitProofs.
Local Opaque p half.
Add Field Fqf : fq_field.

Section Chains.
  Context {E1 E2 GT : grp} (e : E1 -> E2 -> GT) (gen1 : E1) (gen2 : E2).
  Implicit Types (h : header E2) (hs : list (header E2)) (c : committee E2).

  Lemma wf_iff (o o' : E2 -> list bool -> Prop) n h : (forall P b, o P b <-> o' P b) -> well_formed o n h <-> well_formed o' n h.
  Proof.
    intros X. unfold well_formed. assert (Y : forall l, Forall (fun k : E2 * list bool => o (fst k) (snd k)) l <-> Forall (fun k => o' (fst k) (snd k)) l).
    { intros l. split; apply Forall_impl; intros k; apply X. }
    rewrite Y. reflexivity.
  Qed.
  Lemma chain_mono (o o' : E2 -> list bool -> Prop) (H H' : header E2 -> E1 -> Prop) (l l' : Prop) n c hs pairs c' :
    (forall P b, o P b -> o' P b) -> (forall h P, H h P -> H' h P) -> (l' -> l) ->
    chain gen1 gen2 o H l n c hs pairs c' -> chain gen1 gen2 o' H' l' n c hs pairs c'.
  Proof.
    intros X Y L C. assert (W : forall h, well_formed o n h -> well_formed o' n h).
    { intros h [A B]. split; [exact A|]. eapply Forall_impl; [|exact B]. cbv beta. auto. }
    induction C; [constructor|eapply chain_real; eauto|eapply chain_dummy; eauto].
  Qed.
  Lemma assignment_mono to2 (o o' : E2 -> list bool -> Prop) (H H' : header E2 -> E1 -> Prop) (pt pt' : E1 -> Prop) (l l' : Prop) n inputs h0 hs last pairs s :
    (forall P b, o P b -> o' P b) -> (forall h P, H h P -> H' h P) -> (forall P, pt P -> pt' P) -> (l' -> l) ->
    epoch_assignment e gen1 gen2 to2 o H pt l n inputs h0 hs last pairs s ->
    epoch_assignment e gen1 gen2 to2 o' H' pt' l' n inputs h0 hs last pairs s.
  Proof.
    intros X Y P L (W & C & N & S & G & D). split.
    - destruct W as [A B]. split; [exact A|]. eapply Forall_impl; [|exact B]. cbv beta. auto.
    - split; [eapply chain_mono; eauto|auto].
  Qed.
  Lemma statement_iff to2 (o o' : E2 -> list bool -> Prop) (H H' : header E2 -> E1 -> Prop) (pt pt' : E1 -> Prop) n k inputs :
    (forall P b, o P b <-> o' P b) -> (forall h P, H h P <-> H' h P) -> (forall P, pt P <-> pt' P) ->
    epoch_statement e gen1 gen2 to2 o H pt n k inputs <-> epoch_statement e gen1 gen2 to2 o' H' pt' n k inputs.
  Proof.
    intros X Y P. split; intros (h0 & hs & last & pairs & s & L & A); exists h0, hs, last, pairs, s; (split; [exact L|]); revert A; apply assignment_mono; try tauto; intros; first [apply X|apply Y|apply P]; assumption.
  Qed.

  Section Fixed.
    Context (o : E2 -> list bool -> Prop) (H : header E2 -> E1 -> Prop).
    Notation chain := (chain gen1 gen2 o H).
    (** *** Progression *)
    Lemma chain_counted l n c hs pairs c' : chain l n c hs pairs c' -> counted (m_index c) (real_headers hs).
    Proof.
      unfold real_headers. induction 1 as [c|c h bm sg P hs pairs c' W N I L Q Z HH C IH|c h bm sg P hs pairs c' W N Q HH C IH]; cbn [filter].
      - exact Logic.I.
      - apply nz_bit in N as N'. rewrite N'. cbn [counted]. split; [exact I|exact IH].
      - subst. assert (negb (qeqb (h_index h) q0) = false) as -> by (apply negb_false_iff, qeqb_spec, N). exact IH.
    Qed.
    Lemma counted_nth i l k h : counted i l -> nth_error l k = Some h -> h_index h = qadd i (fq_of (Z.of_nat (S k))).
    Proof.
      revert i k. induction l as [|h' l IH]; intros i k C E; [destruct k; discriminate E|]. destruct C as [C1 C2]. destruct k as [|k].
      - cbn [nth_error] in E. injection E as <-. rewrite C1. reflexivity.
      - cbn [nth_error] in E. rewrite (IH _ _ C2 E), C1. apply fq_ext. unfold qadd. rewrite !fqv_of. rewrite Nat2Z.inj_succ with (n := S k).
        change (fqv q1) with 1. modring. rewrite Nat2Z.inj_succ. f_equal. lia.
    Qed.
    (** *** Entropy *)
    Lemma chain_linked (l : Prop) n c hs pairs c' : l -> chain l n c hs pairs c' -> linked_from (m_entropy c) (real_headers hs).
    Proof.
      intros Hl. unfold real_headers. induction 1 as [c|c h bm sg P hs pairs c' W N I L Q Z HH C IH|c h bm sg P hs pairs c' W N Q HH C IH]; cbn [filter].
      - exact Logic.I.
      - apply nz_bit in N as N'. rewrite N'. cbn [linked_from]. split; [exact (L Hl)|exact IH].
      - assert (negb (qeqb (h_index h) q0) = false) as -> by (apply negb_false_iff, qeqb_spec, N). exact IH.
    Qed.
    Lemma linked_nth en l k h h' : linked_from en l -> nth_error l k = Some h -> nth_error l (S k) = Some h' -> h_parent h' = h_entropy h.
    Proof.
      revert en k. induction l as [|x l IH]; intros en k C A B; [destruct k; discriminate A|]. destruct C as [_ C]. destruct k as [|k].
      - cbn [nth_error] in A, B. injection A as ->. destruct l; [discriminate B|]. injection B as ->. apply C.
      - cbn [nth_error] in A, B. eapply IH; eauto.
    Qed.
    (** *** Quorums: every real header has its pair, signed for by a quorum of the previous real committee *)
    Lemma chain_covered l n c hs pairs c' : chain l n c hs pairs c' ->
      exists real, covered gen2 H c (real_headers hs) real /\
        Permutation pairs (real ++ repeat (gen1, gen2) (length hs - length (real_headers hs))).
    Proof.
      unfold real_headers. induction 1 as [c|c h bm sg P hs pairs c' W N I L Q Z HH C IH|c h bm sg P hs pairs c' W N Q HH C IH]; cbn [filter].
      - exists []. split; [exact Logic.I|apply Permutation_refl].
      - apply nz_bit in N as N'. rewrite N'. destruct IH as (real & Hr & Hp). exists ((P, sum sg) :: real). split; [cbn [covered]; eauto 8|].
        cbn [length app Nat.sub]. apply perm_skip, Hp.
      - assert (negb (qeqb (h_index h) q0) = false) as -> by (apply negb_false_iff, qeqb_spec, N). destruct IH as (real & Hr & Hp). exists real. split; [exact Hr|].
        assert (LE : (length (filter (fun h => negb (qeqb (h_index h) q0)) hs) <= length hs)%nat).
        { clear. induction hs; cbn [filter length]; [lia|]. destruct (negb _); cbn [length]; lia. }
        cbn [length]. rewrite Nat.sub_succ_l by exact LE. cbn [repeat]. rewrite <- Permutation_middle. apply perm_skip, Hp.
    Qed.
    Lemma real_length hs : (length (real_headers hs) <= length hs)%nat.
    Proof. unfold real_headers. induction hs; cbn [filter length]; [lia|]. destruct (negb _); cbn [length]; lia. Qed.

    (** *** Dummies *)
    Lemma chain_app l n c hs hs' pairs c' : chain l n c (hs ++ hs') pairs c' <->
      exists c1 pairs1 pairs2, pairs = pairs1 ++ pairs2 /\ chain l n c hs pairs1 c1 /\ chain l n c1 hs' pairs2 c'.
    Proof.
      split.
      - revert c pairs. induction hs as [|h hs IH]; intros c pairs C.
        + exists c, [], pairs. split; [reflexivity|]. split; [constructor|exact C].
        + cbn [app] in C. inversion C; subst.
          * match goal with X : EpochSpec.chain _ _ _ _ _ _ _ (hs ++ hs') _ _ |- _ => destruct (IH _ _ X) as (c1 & p1 & p2 & -> & C1 & C2) end.
            exists c1. do 2 eexists. split; [apply app_comm_cons|]. split; [eapply chain_real; eauto|exact C2].
          * match goal with X : EpochSpec.chain _ _ _ _ _ _ _ (hs ++ hs') _ _ |- _ => destruct (IH _ _ X) as (c1 & p1 & p2 & -> & C1 & C2) end.
            exists c1. do 2 eexists. split; [apply app_comm_cons|]. split; [eapply chain_dummy; eauto|exact C2].
      - intros (c1 & p1 & p2 & -> & C1 & C2). induction C1; [exact C2| |].
        + cbn [app]. eapply chain_real; eauto.
        + cbn [app]. eapply chain_dummy; eauto.
    Qed.
    Lemma dummies_keep l n c hs pairs c' : Forall (fun h => h_index h = q0) hs -> chain l n c hs pairs c' -> c' = c.
    Proof.
      intros F C. induction C as [c|c h bm sg P hs pairs c' W N I L Q Z HH C IH|c h bm sg P hs pairs c' W N Q HH C IH]; [reflexivity| |]; inversion F; subst; [contradiction|auto].
    Qed.
    (** removing the dummies leaves a chain *)
    Lemma chain_real_only l n c hs pairs c' : chain l n c hs pairs c' -> exists pairs', chain l n c (real_headers hs) pairs' c' /\
      Permutation pairs (pairs' ++ repeat (gen1, gen2) (length hs - length (real_headers hs))).
    Proof.
      unfold real_headers. induction 1 as [c|c h bm sg P hs pairs c' W N I L Q Z HH C IH|c h bm sg P hs pairs c' W N Q HH C IH]; cbn [filter].
      - exists []. split; [constructor|apply Permutation_refl].
      - apply nz_bit in N as N'. rewrite N'. destruct IH as (real & Hr & Hp). exists ((P, sum sg) :: real). split; [eapply chain_real; eauto|].
        cbn [length app Nat.sub]. apply perm_skip, Hp.
      - assert (negb (qeqb (h_index h) q0) = false) as -> by (apply negb_false_iff, qeqb_spec, N). destruct IH as (real & Hr & Hp). exists real. split; [exact Hr|].
        assert (LE : (length (filter (fun h => negb (qeqb (h_index h) q0)) hs) <= length hs)%nat).
        { clear. induction hs; cbn [filter length]; [lia|]. destruct (negb _); cbn [length]; lia. }
        cbn [length]. rewrite Nat.sub_succ_l by exact LE. cbn [repeat]. rewrite <- Permutation_middle. apply perm_skip, Hp.
    Qed.
  End Fixed.
End Chains.

(** ** The pinned circuit *)
Lemma g2_coords_tri Q : tri2 Q = (fst (g2_coords Q), snd (g2_coords Q), match Q with Some _ => q2_1 | None => q2_0 end).
Proof. destruct Q as [[x y]|]; reflexivity. Qed.
Section Pinned.
  Context {E1 E2 GT : grp} (e : E1 -> E2 -> GT) (gen1 : E1) (gen2 : E2).
  Context (of1 : apoint fq -> E1) (of2 : apoint fq2 -> E2) (to1 : E1 -> apoint fq) (to2 : E2 -> apoint fq2).
  Context (sqrt : fq -> option fq) (ped : bytes -> option fq) (compat debug : bool).
  Context {HP : Type} (helper_verify : HP -> list (list bool) -> bool).
  Lemma opens_pinned P b : opensP of2 true P b <-> opens_to of2 P b.
  Proof.
    unfold opensP, opens_to. split.
    - intros (X & Y & W & V & H & ->). apply g2_valid_pinned in V as (Q & HQ & E). exists Q. rewrite E, affine2_tri. split; [exact HQ|]. split; [|reflexivity].
      rewrite g2_coords_tri in E. injection E as -> -> _. destruct (g2_coords Q). exact H.
    - intros (Q & HQ & H & ->). exists (fst (g2_coords Q)), (snd (g2_coords Q)), (match Q with Some _ => q2_1 | None => q2_0 end). rewrite <- g2_coords_tri.
      split; [rewrite g2_valid_tri; exact HQ|]. split; [destruct (g2_coords Q); exact H|rewrite affine2_tri; reflexivity].
  Qed.
  Lemma point_pinned s : pointP of1 true s <-> exists Q, on_g1 Q = true /\ s = of1 Q.
  Proof.
    unfold pointP. split.
    - intros (t & V & ->). apply g1_valid_pinned in V as (Q & HQ & ->). exists Q. rewrite affine1_tri. auto.
    - intros (Q & HQ & ->). exists (tri1 Q). rewrite g1_valid_tri, affine1_tri. auto.
  Qed.
  (** a byte given by its bits *)
  Lemma byte_of_bits c : 0 <= c < 256 -> exists v, u8_var v /\ bits_number_le v = c.
  Proof.
    intros H. exists (byte_bits 8 c). split; [apply byte_bits_length|]. change bits_number_le with bits_le_val. rewrite byte_bits_val. apply Z.mod_small, H.
  Qed.
  Lemma u8_range v : u8_var v -> 0 <= bits_number_le v < 256.
  Proof. intros H. change bits_number_le with bits_le_val. pose proof (bits_le_val_bound v) as B. rewrite H in B. exact B. Qed.
  Lemma hashes_pinned (h : header E2) (P : E1) : hashesP of1 sqrt ped compat true true h P <-> hashes_to of1 (native_ped ped) compat h P.
  Proof.
    unfold hashesP, hashP, hashes_to, digest_selects. split.
    - intros (crh & xof & counter & Hc & H). apply gadget_sound in H; [|exact Hc|apply pack_u8_var]. destruct H as (inner & digest & H1 & _ & H2 & _ & H3).
      cbn [HasherModel.crh HasherModel.xof composite_hasher] in H1, H2.
      exists (map bits_le_val (pack_u8 (signed_bits h))), (map bits_le_val (pack_u8 (extra_bits h))), inner, digest, (bits_number_le counter).
      split; [apply pack_u8_native|]. split; [apply pack_u8_native|]. split; [exact H1|]. split; [apply u8_range, Hc|]. split; [exact H2|exact H3].
    - intros (m & x & inner & digest & c & Hm & Hx & H1 & Hc & H2 & H3). rewrite pack_u8_native in Hm, Hx. apply ok_inj in Hm, Hx. subst m x.
      destruct (byte_of_bits c Hc) as (counter & Hv & <-).
      exists (flat_map (fun b => map (fun i => Z.testbit b (Z.of_nat i)) (seq 0 8)) inner), (flat_map (fun b => map (fun i => Z.testbit b (Z.of_nat i)) (seq 0 8)) digest), counter.
      split; [exact Hv|]. apply gadget_sound; [exact Hv|apply pack_u8_var|]. exists inner, digest. cbn [HasherModel.crh HasherModel.xof composite_hasher].
      split; [exact H1|]. split; [reflexivity|]. split; [exact H2|]. split; [reflexivity|exact H3].
  Qed.
  Lemma hashes_free (h : header E2) (P : E1) : hashesP of1 sqrt ped compat true false h P <-> hashes_freely of1 (native_ped ped) compat h P.
  Proof.
    unfold hashesP, hashP, hashes_freely, digest_selects. split.
    - intros (crh & xof & counter & Hc & H). apply gadget_free in H as (inner & H1 & _ & L & H3).
      exists (map bits_le_val (pack_u8 (signed_bits h))), inner, (bytes_of_bits xof). split; [apply pack_u8_native|]. split; [exact H1|].
      assert (V : number (bytes_of_bits xof) = bits_le_val xof) by (rewrite bytes_of_bits_pack; apply pack_bytes_val).
      split. { rewrite bytes_of_bits_pack, pack_bytes_length, L. reflexivity. } split; [rewrite bytes_of_bits_pack; apply pack_bytes_is_bytes|]. rewrite V. exact H3.
    - intros (m & inner & digest & Hm & H1 & L & B & H3). rewrite pack_u8_native in Hm. apply ok_inj in Hm. subst m.
      destruct (byte_of_bits 0 ltac:(lia)) as (counter & Hv & _).
      exists (flat_map (fun b => map (fun i => Z.testbit b (Z.of_nat i)) (seq 0 8)) inner), (bits_of_bytes digest), counter. split; [exact Hv|].
      apply gadget_free. exists inner. split; [exact H1|]. split; [reflexivity|]. split; [rewrite bits_of_bytes_length, L; reflexivity|].
      rewrite bits_of_bytes_val by exact B. exact H3.
  Qed.
  Lemma pinned_circuit n (w : validator_set_update E1 E2 HP) inputs : gen2 <> gz -> sizes n w ->
    holds (generate_constraints e gen1 gen2 of1 of2 to1 to2 sqrt ped compat true debug helper_verify w) inputs <->
    epoch_statement e gen1 gen2 to2 (opens_to of2) (hashes_in of1 ped compat (constrained w)) (on_g1_point of1) n (length (vsu_epochs w)) inputs.
  Proof.
    intros Hg Hs. rewrite (circuit_holds e gen1 gen2 of1 of2 to1 to2 sqrt ped compat true debug helper_verify n w inputs Hg Hs). apply statement_iff.
    - apply opens_pinned.
    - unfold hashes_in. destruct (constrained w); [apply hashes_pinned|apply hashes_free].
    - apply point_pinned.
  Qed.
End Pinned.

(** ** Values the public inputs do not pin down *)
Section Modify.
  Context {E1 E2 GT : grp} (e : E1 -> E2 -> GT) (gen1 : E1) (gen2 : E2) (to2 : E2 -> apoint fq2).
  Context (o : E2 -> list bool -> Prop) (H : header E2 -> E1 -> Prop) (pt : E1 -> Prop).
  Definition with_max (m : fq) (h : header E2) := mk_header (h_index h) (h_round h) m (h_entropy h) (h_parent h) (h_keys h).
  Definition with_entropy (en : fq) (h : header E2) := mk_header (h_index h) (h_round h) (h_max h) en (h_parent h) (h_keys h).
  Lemma chain_no_link l n i i' k en en' m hs pairs c' : i = i' -> chain gen1 gen2 o H l n (mk_committee k i en m) hs pairs c' -> (l -> False) -> hs <> [] ->
    (exists h, In h hs /\ h_index h <> q0) -> chain gen1 gen2 o H l n (mk_committee k i' en' m) hs pairs c'.
  Proof.
    intros <- C F _. remember (mk_committee k i en m) as c eqn:Ec. revert en en' Ec.
    induction C as [c|c h bm sg P hs pairs c' W N I L Q Z HH C IH|c h bm sg P hs pairs c' W N Q HH C IH]; intros en en' Ec R; subst.
    - destruct R as (h & [] & _).
    - eapply chain_real; eauto. intros X. destruct (F X).
    - eapply chain_dummy; eauto. eapply IH; eauto. destruct R as (h' & [<-|R] & R'); [contradiction|eauto].
  Qed.
  Lemma unlinked_statement n k inputs :
    epoch_statement e gen1 gen2 to2 o H pt n k inputs <->
    exists h0 hs last pairs s, length (hs ++ [last]) = k /\ epoch_assignment e gen1 gen2 to2 o H pt False n inputs h0 hs last pairs s.
  Proof.
    split; intros (h0 & hs & last & pairs & s & L & A).
    - exists h0, hs, last, pairs, s. split; [exact L|]. revert A. apply assignment_mono; tauto.
    - exists (with_entropy q0 h0), hs, last, pairs, s. split; [exact L|]. destruct A as (W & C & N & S' & G & D).
      split; [exact W|]. split; [|auto]. apply (chain_mono gen1 gen2 o o H H False); [tauto|tauto|intros X; apply X; reflexivity|].
      unfold committee_of at 1. cbn [with_entropy h_keys h_index h_entropy h_max]. unfold committee_of at 1 in C.
      eapply chain_no_link; [reflexivity|exact C|tauto|destruct hs; discriminate|]. exists last. split; [apply in_or_app; right; left; reflexivity|exact N].
  Qed.
  Lemma with_max_edges inputs m h0 last : fqv m mod 2 ^ 32 = fqv (h_max h0) mod 2 ^ 32 ->
    edges to2 inputs (with_max m h0) last <-> edges to2 inputs h0 last.
  Proof.
    intros M. unfold edges. assert (first_bits (with_max m h0) = first_bits h0) as ->; [|reflexivity].
    unfold first_bits, key_bits. cbn [with_max h_index h_parent h_max h_keys]. assert (low 32 m = low 32 (h_max h0)) as -> by (apply low_eq; exact M). reflexivity.
  Qed.
End Modify.

(** ** Counting signers, adding and removing dummies *)
Lemma quorum_size {E2 : grp} (gen2 : E2) c bitmap signing : quorum gen2 c bitmap signing ->
  Z.of_nat (length (m_keys c)) - fqv (m_max c) <= Z.of_nat (length signing).
Proof.
  intros (_ & S' & _ & M & _). assert (X : Z.of_nat (length (m_keys c)) = Z.of_nat (length signing) + positions false bitmap); [|lia].
  clear M. unfold positions. induction S' as [|k ks bs l S' IH|k ks bs l S' IH]; cbn [length count_occ]; [reflexivity| |]; destruct (Bool.bool_dec _ _); try discriminate; lia.
Qed.
Section Dummies.
  Context {E1 E2 GT : grp} (e : E1 -> E2 -> GT) (gen1 : E1) (gen2 : E2) (to2 : E2 -> apoint fq2).
  Context (o : E2 -> list bool -> Prop) (H : header E2 -> E1 -> Prop) (pt : E1 -> Prop).
  Hypothesis (B1 : forall P S, e (ga P S) gen2 = ga (e P gen2) (e S gen2)).
  Implicit Types (h : header E2) (hs : list (header E2)) (c : committee E2).
  Lemma chain_after l n c hs pairs c' : chain gen1 gen2 o H l n c hs pairs c' -> c' = committee_after c hs.
  Proof.
    unfold committee_after. induction 1 as [c|c h bm sg P hs pairs c' W N I L Q Z HH C IH|c h bm sg P hs pairs c' W N Q HH C IH]; cbn [fold_left]; [reflexivity| |].
    - destruct (qeqb (h_index h) q0) eqn:E; [apply qeqb_spec in E; contradiction|exact IH].
    - apply qeqb_spec in N. rewrite N. exact IH.
  Qed.
  Lemma chain_dummies l n c bm sg ds : quorum gen2 c bm sg -> Forall (fun h => well_formed o n h /\ h_index h = q0 /\ exists P, H h P) ds ->
    chain gen1 gen2 o H l n c ds (repeat (gen1, gen2) (length ds)) c.
  Proof.
    intros Q F. induction F as [|h ds (W & N & P & HH) _ IH]; cbn [length repeat]; [constructor|]. eapply chain_dummy; eauto.
  Qed.
  Lemma pairing_gens (s : E1) d : sum (map (fun '(P, K) => e P K) (repeat (gen1, gen2) d)) = e (sum (repeat gen1 d)) gen2.
  Proof.
    induction d as [|d IH].
    - cbn [repeat map sum fold_right]. pose proof (B1 gz gz) as X. rewrite ga_0_l in X. apply (f_equal (ga (gn (e gz gen2)))) in X.
      rewrite gn_l, ga_assoc, gn_l, ga_0_l in X. exact X.
    - cbn [repeat map sum fold_right]. unfold sum in *. rewrite IH, B1. reflexivity.
  Qed.
  Lemma sum_perm {G : grp} (l l' : list G) : Permutation l l' -> sum l = sum l'.
  Proof. rewrite <- !sum_gsum. apply gsum_perm. Qed.
  Lemma signed_more s pairs pairs' d : (forall P, e P (gn gen2) = gn (e P gen2)) -> Permutation pairs' (pairs ++ repeat (gen1, gen2) d) ->
    signed e gen2 s pairs <-> signed e gen2 (ga s (sum (repeat gen1 d))) pairs'.
  Proof.
    intros B2 HP'. unfold signed. rewrite (sum_perm _ _ (Permutation_map _ HP')). rewrite map_app. set (f := fun '(P, K) => e P K).
    assert (A : sum (map f pairs ++ map f (repeat (gen1, gen2) d)) = ga (sum (map f pairs)) (e (sum (repeat gen1 d)) gen2)).
    { rewrite <- sum_gsum, gsum_app, !sum_gsum. f_equal. apply (pairing_gens s). }
    rewrite A. assert (L : e (ga s (sum (repeat gen1 d))) (gn gen2) = ga (e s (gn gen2)) (e (sum (repeat gen1 d)) (gn gen2))).
    { rewrite !B2, B1. apply gn_add. }
    rewrite L. assert (Z : ga (e (sum (repeat gen1 d)) (gn gen2)) (e (sum (repeat gen1 d)) gen2) = gz) by (rewrite B2; apply gn_l).
    set (a := e s (gn gen2)). set (b := sum (map f pairs)) in *. set (x := e (sum (repeat gen1 d)) (gn gen2)) in *. set (y := e (sum (repeat gen1 d)) gen2) in *.
    assert (ga (ga a x) (ga b y) = ga a b) as ->; [|reflexivity].
    transitivity (ga (ga a b) (ga x y)); [|rewrite Z, ga_comm; apply ga_0_l].
    rewrite !ga_assoc. f_equal. rewrite <- !ga_assoc. f_equal. apply ga_comm.
  Qed.
  Lemma real_snoc hs last : h_index last <> q0 -> real_headers (hs ++ [last]) = real_headers hs ++ [last].
  Proof. intros N. unfold real_headers. rewrite filter_app. cbn [filter]. apply nz_bit in N. rewrite N. reflexivity. Qed.
  Lemma remove_dummies (l : Prop) n inputs h0 hs last pairs s : (forall P, e P (gn gen2) = gn (e P gen2)) -> (forall s, pt s) ->
    epoch_assignment e gen1 gen2 to2 o H pt l n inputs h0 hs last pairs s ->
    exists pairs' s', epoch_assignment e gen1 gen2 to2 o H pt l n inputs h0 (real_headers hs) last pairs' s'.
  Proof.
    intros B2 AP (W & C & N & S' & G & D). apply chain_real_only in C as (pairs' & C & HP'). rewrite real_snoc in C by exact N.
    set (d := (length (hs ++ [last]) - length (real_headers (hs ++ [last])))%nat) in HP'.
    exists pairs', (ga s (gn (sum (repeat gen1 d)))). split; [exact W|]. split; [exact C|]. split; [exact N|]. split; [apply AP|]. split; [|exact D].
    apply (signed_more _ pairs' pairs d B2 HP'). rewrite <- ga_assoc, gn_l. rewrite ga_comm, ga_0_l. exact G.
  Qed.
  Lemma insert_dummies (l : Prop) n inputs h0 hs1 hs2 last pairs s ds bm sg : (forall P, e P (gn gen2) = gn (e P gen2)) -> (forall s, pt s) ->
    epoch_assignment e gen1 gen2 to2 o H pt l n inputs h0 (hs1 ++ hs2) last pairs s ->
    quorum gen2 (committee_after (committee_of h0) hs1) bm sg -> Forall (fun h => well_formed o n h /\ h_index h = q0 /\ exists P, H h P) ds ->
    exists pairs', epoch_assignment e gen1 gen2 to2 o H pt l n inputs h0 (hs1 ++ ds ++ hs2) last pairs' (ga s (sum (repeat gen1 (length ds)))).
  Proof.
    intros B2 AP (W & C & N & S' & G & D) Q F. rewrite <- app_assoc in C. apply chain_app in C as (c1 & p1 & p2 & -> & C1 & C2).
    pose proof (chain_after _ _ _ _ _ _ C1) as ->. exists (p1 ++ repeat (gen1, gen2) (length ds) ++ p2).
    split; [exact W|]. split; [|split; [exact N|]; split; [apply AP|]; split; [|exact D]].
    - rewrite <- !app_assoc. apply chain_app. do 3 eexists. split; [reflexivity|]. split; [exact C1|]. apply chain_app. do 3 eexists. split; [reflexivity|].
      split; [eapply chain_dummies; eauto|exact C2].
    - apply (signed_more s (p1 ++ p2) _ (length ds) B2); [|exact G]. rewrite <- app_assoc. apply Permutation_app_head, Permutation_app_comm.
  Qed.
End Dummies.
Lemma dummies_pairs {E1 E2 : grp} (gen1 : E1) (gen2 : E2) o H l n c hs pairs c' : Forall (fun h => h_index h = q0) hs -> chain gen1 gen2 o H l n c hs pairs c' ->
  pairs = repeat (gen1, gen2) (length hs).
Proof.
  intros F C. induction C as [c|c h bm sg P hs pairs c' W N I L Q Z HH C IH|c h bm sg P hs pairs c' W N Q HH C IH]; [reflexivity| |]; inversion F; subst; [contradiction|].
  cbn [length repeat]. f_equal. auto.
Qed.
Lemma chain_wf {E1 E2 : grp} (gen1 : E1) (gen2 : E2) o H l n c hs pairs c' : chain gen1 gen2 o H l n c hs pairs c' -> Forall (well_formed o n) (real_headers hs).
Proof.
  unfold real_headers. induction 1 as [c|c h bm sg P hs pairs c' W N I L Q Z HH C IH|c h bm sg P hs pairs c' W N Q HH C IH]; cbn [filter]; [constructor| |];
    destruct (negb _); try assumption; constructor; assumption.
Qed.
Lemma not_determined x n : (n < 376)%nat -> exists y, y <> x /\ fr_to_bits y n = fr_to_bits x n.
Proof.
  intros H. assert (P : 2 * 2 ^ Z.of_nat n <= p).
  { transitivity (2 ^ 376); [|vm_compute; discriminate]. rewrite <- Z.pow_succ_r by lia. apply Z.pow_le_mono_r; lia. }
  assert (B : 0 < 2 ^ Z.of_nat n) by lia. pose proof (fqv_range x) as R.
  assert (X : exists v, 0 <= v < p /\ v <> fqv x /\ v mod 2 ^ Z.of_nat n = fqv x mod 2 ^ Z.of_nat n).
  { destruct (Z_lt_dec (fqv x + 2 ^ Z.of_nat n) p) as [L|L].
    - exists (fqv x + 2 ^ Z.of_nat n). split; [lia|]. split; [lia|]. rewrite <- (Z.mul_1_l (2 ^ Z.of_nat n)) at 1. apply Z.mod_add. lia.
    - exists (fqv x - 2 ^ Z.of_nat n). split; [lia|]. split; [lia|]. replace (fqv x - 2 ^ Z.of_nat n) with (fqv x + (-1) * 2 ^ Z.of_nat n) by ring. apply Z.mod_add. lia. }
  destruct X as (v & Rv & Nv & Ev). exists (fq_of v). assert (V : fqv (fq_of v) = v) by (rewrite fqv_of; apply Z.mod_small, Rv). split.
  - intros E. apply Nv. rewrite <- V, E. reflexivity.
  - rewrite !fr_to_bits_low by lia. apply low_eq. rewrite V. exact Ev.
Qed.
