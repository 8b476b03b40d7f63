(** What a satisfied epoch circuit means. *)
From Coq Require Import Field.
From Verif Require Import Base Constants Group Field Curve BlsModel BitsModel BitsProofs EncodingModel EncodingSpec EncodingProofs BatchProofs Blake2 HasherModel HasherSpec HasherProofs PointModel
  HashCurveModel HashCurveSpec PointProofs HashCurveProofs CodecSpec Circuit CircuitFacts GadgetModel GadgetSpec CubeFacts GadgetProofs
  HashGadgetModel HashGadgetSpec HashGadgetProofs HashGadgetNative EpochCircuitModel EpochSpec EpochCircuitSpec EpochProofs.
Local Open Scope circ_scope.
Local Opaque p half.
Add Field Fqf : fq_field.

(** ** The edges *)
Lemma edge_block : bp_bytes edge_params = param_block out_params.
Proof. vm_compute. reflexivity. Qed.
Lemma edge_is bits : edge bits = Ret (bits_of_bytes (blake2_out (map bits_le_val (pack_u8 bits)))).
Proof.
  unfold edge, evaluate_blake2s, blake2_out. rewrite edge_block, rev_length. set (m := rev bits ++ _).
  assert (Lm : length m = (8 * ((length bits + 7) / 8))%nat).
  { unfold m. rewrite app_length, rev_length, repeat_length. assert (length bits <= 8 * ((length bits + 7) / 8))%nat; [|lia].
    pose proof (Nat.div_mod (length bits + 7) 8 ltac:(lia)). pose proof (Nat.mod_upper_bound (length bits + 7) 8 ltac:(lia)). lia. }
  assert ((length m mod 8 =? 0)%nat = true) as ->. { rewrite Lm, Nat.mul_comm, Nat.mod_mul by lia. reflexivity. }
  assert (bytes_of_bits m = map bits_le_val (pack_u8 bits)) as ->; [|reflexivity].
  pose proof (pack_u8_native bits) as N. rewrite bits_be_to_bytes_le_ok in N. apply ok_inj in N. rewrite <- N, bytes_of_bits_pack.
  apply le_val_inj; try apply pack_bytes_is_bytes.
  - rewrite !pack_bytes_length, Lm, rev_length, Nat.mul_comm, Nat.div_add_l by lia. change (7 / 8)%nat with 0%nat. lia.
  - rewrite !pack_bytes_val. unfold m. rewrite bits_le_val_app, bits_le_val_zeros. ring.
Qed.
Lemma digest_bits_eq a b : digest_bits a b = bits_of_bytes (blake2_out a) ++ bits_of_bytes (blake2_out b).
Proof. transitivity (bits_of_bytes (blake2_out a ++ blake2_out b)); [symmetry; apply bits_are_iff; reflexivity|apply bits_of_bytes_app]. Qed.
Lemma digest_bits_len512 a b : length (digest_bits a b) = 512%nat.
Proof. rewrite digest_bits_eq, app_length, !bits_of_bytes_length, !(proj1 (blake2_out_length _)). reflexivity. Qed.
Lemma edges_holds {H} (verify : H -> list (list bool) -> bool) b helper inputs :
  holds (verify_bits verify b helper) inputs <->
  commits inputs (map bits_le_val (pack_u8 (b_first b))) (map bits_le_val (pack_u8 (b_last b))).
Proof.
  set (first := map bits_le_val (pack_u8 (b_first b))). set (last := map bits_le_val (pack_u8 (b_last b))).
  assert (E : verify_edges b = multipack (digest_bits first last) CAPACITY).
  { unfold verify_edges. rewrite !edge_is. cbn [cbind]. rewrite digest_bits_eq. reflexivity. }
  assert (V : holds (verify_bits verify b helper) inputs <-> holds (multipack (digest_bits first last) CAPACITY) inputs).
  { unfold verify_bits. rewrite E. split.
    - intros X. apply holds_bind in X as (u & _ & X). exact X.
    - intros X. apply holds_bind. exists tt. split; [|exact X]. destruct helper as [h|]; [|reflexivity].
      unfold verify_proof. apply holds_bind. exists h. split; [apply holds_witness|reflexivity]. }
  rewrite V, multipack_holds by (unfold CAPACITY; lia). rewrite two_chunks by apply digest_bits_len512. unfold commits.
  assert (L1 : length (firstn 376 (digest_bits first last)) = 376%nat) by (rewrite firstn_length, digest_bits_len512; reflexivity).
  assert (L2 : length (skipn 376 (digest_bits first last)) = 136%nat) by (rewrite skipn_length, digest_bits_len512; reflexivity).
  rewrite !bits_number_be_eq. set (c1 := firstn 376 _) in *. set (c2 := skipn 376 _) in *. clearbody c1 c2. split.
  - intros X. inversion X as [|? a0 ? l0 A B Ex1 Ex2]; subst. inversion B as [|? b0 ? l1 C D Ex1 Ex2]; subst. inversion D; subst. exists a0, b0. rewrite L1 in A. rewrite L2 in C. auto.
  - intros (x & y & -> & Hx & Hy). constructor; [rewrite L1; exact Hx|]. constructor; [rewrite L2; exact Hy|constructor].
Qed.

(** ** The whole circuit *)
Section Circuit.
  Context {E1 E2 GT : grp} (e : E1 -> E2 -> GT) (gen1 : E1) (gen2 : E2).
  Context (of1 : apoint fq -> E1) (of2 : apoint fq2 -> E2) (to1 : E1 -> apoint fq) (to2 : E2 -> apoint fq2).
  Context (sqrt : fq -> option fq) (ped : bytes -> option fq) (compat pin debug : bool).
  Context {HP : Type} (helper_verify : HP -> list (list bool) -> bool).
  Notation generate_constraints := (generate_constraints e gen1 gen2 of1 of2 to1 to2 sqrt ped compat pin debug helper_verify).
  Notation opensP := (opensP of2 pin).
  Notation hashesP := (hashesP of1 sqrt ped compat pin).
  Definition pointP (s : E1) : Prop := exists t, g1_valid pin t = true /\ s = of1 (affine1 t).
  Lemma combine_pairs {A B C} (f : A * B -> C) (l : list (A * B)) : map f (combine (map fst l) (map snd l)) = map f l.
  Proof. induction l as [|[a b] l IH]; [reflexivity|]. cbn [map combine fst snd]. f_equal. exact IH. Qed.

  Lemma circuit_holds n w inputs : gen2 <> gz -> sizes n w ->
    holds (generate_constraints w) inputs <->
    epoch_statement e gen1 gen2 to2 opensP (hashesP (constrained w)) pointP n (length (vsu_epochs w)) inputs.
  Proof.
    intros Hg (Sn & Hn & Ne & L0 & Hs). unfold EpochCircuitModel.generate_constraints, enforce_epochs. split.
    - intros H. apply holds_bind in H as (b & Hb & H). apply edges_holds in H.
      apply holds_bind in Hb as (v0 & Hv & Hb). apply to_bits_holds in Hv as (h0 & Hw & ->). rewrite L0 in Hw.
      apply holds_bind in Hb as ([[[[last crh] xof] apks] hs] & Hl & Hb). unfold verify_intermediate_epochs in Hl.
      apply holds_bind in Hl as (z & Hz & Hl). apply eq_zero_bit in Hz. subst z. cbn [vars_of v_entropy v_keys v_index v_max v_first] in *. rewrite Sn in Hl.
      apply holds_bind in Hb as (u & Hsig & Hb). cbn [holds] in Hb. subst b. cbn [b_first b_last] in H.
      set (c0 := mk_carried (map fst (h_keys h0)) (h_index h0) (h_entropy h0) (h_max h0)) in *.
      destruct (proj1 (loop_holds gen1 gen2 of1 of2 to2 sqrt ped compat pin debug (vsu_epochs w) n (constrained w) (negb (qeqb (h_entropy h0) q0)) Hn Hg Hs c0 last apks hs ltac:(unfold c0; cbn [c_keys]; rewrite map_length; apply Hw)))
        as (headers & pairs & c' & Lh & Hc & -> & -> & Hcl); [exists crh, xof; exact Hl|].
      destruct headers as [|h1 headers]; [destruct (vsu_epochs w); [congruence|discriminate Lh]|]. cbn [closed] in Hcl. destruct Hcl as (pre & h & Eh & Hend). rewrite Eh in *.
      destruct Hend as (Nz & x & y & bits & Et & Henc & ->).
      apply holds_bind in Hsig as (t & Ht & Hsig). apply alloc_g1_holds in Ht. apply prepared_holds in Hsig; [|exact Hg]. rewrite combine_pairs in Hsig.
      pose proof (chain_last _ _ _ _ _ _ _ _ _ _ _ _ Hc Nz) as Ec. subst c'. cbn [committee_of m_keys] in Et.
      exists h0, pre, h, pairs, (of1 (affine1 t)). split; [exact Lh|]. split; [exact Hw|]. split.
      { eapply chain_weaken; [|exact Hc]. intros X. apply nz_bit, X. }
      split; [exact Nz|]. split; [exists t; auto|]. split; [exact Hsig|].
      exists bits. do 2 eexists. split; [exists (x, y); auto|]. split; [apply pack_u8_native|]. split; [apply pack_u8_native|]. exact H.
    - intros (h0 & pre & h & pairs & s & Lh & Hw & Hc & Nz & (t & Ht & ->) & Hsig & agg & first & closing & ([x y] & Et & Henc) & E1' & E2' & Hin).
      rewrite pack_u8_native in E1', E2'. apply ok_inj in E1', E2'. subst first closing.
      destruct (proj2 (loop_holds gen1 gen2 of1 of2 to2 sqrt ped compat pin debug (vsu_epochs w) n (constrained w) (negb (qeqb (h_entropy h0) q0)) Hn Hg Hs
        (mk_carried (map fst (h_keys h0)) (h_index h0) (h_entropy h0) (h_max h0)) (closing_bits h ++ agg) (map snd pairs) (map fst pairs)
        ltac:(cbn [c_keys]; rewrite map_length; apply Hw))) as (crh & xof & Hl).
      { exists (pre ++ [h]), pairs, (committee_of h). split; [exact Lh|]. split. { eapply chain_weaken; [|exact Hc]. intros X. apply nz_bit, X. }
        split; [reflexivity|]. split; [reflexivity|]. assert (EN : ends to2 h (m_keys (committee_of h)) (closing_bits h ++ agg)).
        { split; [exact Nz|]. exists x, y, agg. auto. }
        unfold closed. destruct (pre ++ [h]) eqn:Ep; [destruct pre; discriminate Ep|]. rewrite <- Ep. exists pre, h. split; [reflexivity|exact EN]. }
      apply holds_bind. exists (mk_bits (first_bits h0) (closing_bits h ++ agg) crh xof). split; [|apply edges_holds; exact Hin].
      apply holds_bind. exists (vars_of h0). split; [apply to_bits_holds; exists h0; rewrite L0; auto|].
      apply holds_bind. exists (closing_bits h ++ agg, crh, xof, map snd pairs, map fst pairs). split.
      { unfold verify_intermediate_epochs. apply holds_bind. exists (qeqb (h_entropy h0) q0). split; [apply eq_zero_bit; reflexivity|]. rewrite Sn. exact Hl. }
      apply holds_bind. exists tt. split; [|reflexivity]. unfold verify_signature. apply holds_bind. exists t. split; [apply alloc_g1_holds, Ht|].
      apply prepared_holds; [exact Hg|]. rewrite combine_pairs. exact Hsig.
  Qed.
End Circuit.
