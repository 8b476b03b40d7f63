(** The hash-to-group gadget against the native hash, and what the constraints leave open. *)
From Coq Require Import Field.
From Verif Require Import Base Constants Group Field Curve BlsModel BlsSpec BitsModel BitsProofs EncodingModel EncodingSpec EncodingProofs Blake2 HasherModel HasherSpec
  HasherProofs PointModel HashCurveModel HashCurveSpec PointProofs HashCurveProofs CodecSpec Circuit CircuitFacts GadgetModel GadgetSpec CubeFacts
  GadgetProofs HashGadgetModel HashGadgetSpec HashGadgetProofs.
Local Open Scope circ_scope.
Local Opaque p half.
Add Field Fqf : fq_field.

Lemma ok_inj {A} (a b : A) : Ok a = Ok b -> a = b.
Proof. intros H. injection H as H. exact H. Qed.
(** Negation of points. *)
Definition negation_law {E1 : grp} (of1 : apoint fq -> E1) : Prop := forall P, of1 (g1_neg P) = gn (of1 P).

Lemma number_mod l n k : (n <= length l)%nat -> is_bytes l = true -> 0 <= k <= 8 * Z.of_nat n -> number (firstn n l) mod 2 ^ k = number l mod 2 ^ k.
Proof.
  intros L B K. rewrite <- (firstn_skipn n l) at 2. rewrite number_app, firstn_length, Nat.min_l by exact L.
  rewrite pow256 by lia. replace (8 * Z.of_nat n) with (k + (8 * Z.of_nat n - k)) by ring. rewrite Z.pow_add_r by lia.
  rewrite <- Z.mul_assoc, (Z.mul_comm (2 ^ k)), Z.mod_add; [reflexivity|]. apply Z.pow_nonzero; lia.
Qed.
Lemma testbit_mod v k j : 0 <= j < k -> Z.testbit (v mod 2 ^ k) j = Z.testbit v j.
Proof. intros H. rewrite Z.mod_pow2_bits_low by lia. reflexivity. Qed.
Lemma number_bit l n j : (n <= length l)%nat -> is_bytes l = true -> 0 <= j < 8 * Z.of_nat n -> Z.testbit (number (firstn n l)) j = Z.testbit (number l) j.
Proof.
  intros L B J. rewrite <- (testbit_mod (number (firstn n l)) (8 * Z.of_nat n) j J), number_mod by (try assumption; lia).
  apply testbit_mod, J.
Qed.

Section Native.
  Context {E1 : grp} (of1 : apoint fq -> E1) (sqrt : fq -> option fq) (ped : bytes -> option fq) (compat : bool).
  Notation htg := (HashGadgetModel.hash_to_group of1 sqrt compat).
  Notation ehtg := (enforce_hash_to_group of1 sqrt ped compat).
  Notation sb := (g1_sign_bit compat).

  Lemma torsion_killed x : negation_law of1 -> smul G1_COFACTOR (of1 (Some (x, q0))) = gz.
  Proof.
    intros N. assert (D : ga (of1 (Some (x, q0))) (of1 (Some (x, q0))) = gz).
    { specialize (N (Some (x, q0))). unfold g1_neg, ec_neg in N. assert (qopp q0 = q0) as Z by ring. rewrite Z in N. rewrite N at 1. apply gn_l. }
    replace G1_COFACTOR with ((G1_COFACTOR / 2) * 2) by reflexivity.
    rewrite smul_mul. assert (smul 2 (of1 (Some (x, q0))) = gz) as ->. { change 2 with (1 + 1). rewrite smul_add, smul_1. exact D. }
    apply smul_gz.
  Qed.
  (** the digest [out] as the number the gadget reads and as the number the native decoder reads *)
  Lemma digest_views out : length out = 64%nat -> is_bytes out = true ->
    number (firstn 48 out) mod 2 ^ 377 = bits_le_val (bits_of_bytes out) mod 2 ^ 377 /\
    Z.testbit (number (firstn 48 out)) sb = Z.testbit (bits_le_val (bits_of_bytes out)) sb /\
    Z.testbit (number (firstn 48 out)) 382 = Z.testbit (bits_le_val (bits_of_bytes out)) 382.
  Proof.
    intros L B. rewrite bits_of_bytes_val by exact B. change (le_val out) with (number out).
    assert (L48 : (48 <= length out)%nat) by (rewrite L; lia).
    split; [apply number_mod; try assumption; lia|]. split; apply number_bit; try assumption; try lia.
    unfold g1_sign_bit. destruct compat; lia.
  Qed.
  Lemma denotes_selected out Q : length out = 64%nat -> is_bytes out = true ->
    smul G1_COFACTOR (of1 (Some Q)) <> gz -> negation_law of1 ->
    denotes_g1 sb (number (firstn 48 out)) (Some Q) -> selected sb (bits_le_val (bits_of_bytes out)) Q.
  Proof.
    intros L B NZ N H. destruct Q as [x y]. destruct (digest_views out L B) as (V1 & V2 & V3).
    unfold denotes_g1 in H. cbv zeta in H. rewrite V1, V2, V3 in H. destruct H as (_ & _ & Hx & HE & Hs).
    split; [exact HE|]. split; [exact Hx|]. cbn [snd]. unfold le1, larger1 in *.
    assert (Y0 : fqv (qopp y) <> fqv y).
    { intros E. apply fq_ext in E. assert (y = q0).
      { assert (S : qadd y y = q0) by (rewrite <- E at 1; ring).
        destruct (fq_integral (qadd q1 q1) y) as [T|T]; [rewrite <- S; ring| |exact T]. exfalso. apply (f_equal fqv) in T. vm_compute in T. discriminate. }
      subst y. apply NZ, torsion_killed, N. }
    destruct (Z.testbit _ _); split; intros; try lia; try reflexivity; discriminate.
  Qed.
  Lemma selected_denotes out Q : length out = 64%nat -> is_bytes out = true ->
    (fst Q = q0 -> Z.testbit (bits_le_val (bits_of_bytes out)) 382 = false) ->
    selected sb (bits_le_val (bits_of_bytes out)) Q -> denotes_g1 sb (number (firstn 48 out)) (Some Q).
  Proof.
    intros L B I (HE & Hx & Hs). destruct Q as [x y]. destruct (digest_views out L B) as (V1 & V2 & V3).
    unfold denotes_g1. cbv zeta. rewrite V1, V2, V3. cbn [fst snd] in *. pose proof (fqv_range x) as R. unfold le1, larger1 in *.
    split; [lia|]. split.
    - intros [X0 T]. rewrite I in T; [discriminate|]. apply fq_ext. rewrite Hx, X0. reflexivity.
    - split; [exact Hx|]. split; [exact HE|]. destruct (Z.testbit _ sb).
      + assert (fqv (qopp y) < fqv y) by (apply Hs; reflexivity). lia.
      + destruct (Z.lt_ge_cases (fqv (qopp y)) (fqv y)) as [H|H]; [apply Hs in H; discriminate|exact H].
  Qed.
  (** native candidates are the gadget's non-zero outputs *)
  Lemma candidates out P : length out = 64%nat -> is_bytes out = true -> of1 None = gz -> negation_law of1 ->
    bits_le_val (bits_of_bytes out) mod 2 ^ 377 <> 0 ->
    gives (denotes_g1 sb) of1 G1_COFACTOR 48 out P <-> holds (htg true (bits_of_bytes out)) P /\ P <> gz.
  Proof.
    intros L B Z N X0. assert (Lb : length (bits_of_bytes out) = 512%nat) by (rewrite bits_of_bytes_length, L; reflexivity).
    rewrite hash_to_group_pinned by exact Lb. split.
    - intros (Q & HQ & -> & NZ). split; [|exact NZ]. left. destruct Q as [Q|].
      + exists Q. split; [|reflexivity]. apply denotes_selected; assumption.
      + exfalso. apply NZ. rewrite Z. apply smul_gz.
    - intros [[(Q & HQ & ->)|(E & _)] NZ]; [|contradiction]. exists (Some Q). split; [|auto]. apply selected_denotes; try assumption.
      intros Q0. exfalso. apply X0. destruct HQ as (_ & HQ & _). rewrite <- HQ, Q0. reflexivity.
  Qed.
  Lemma candidate_accepted out P : length out = 64%nat -> is_bytes out = true -> of1 None = gz -> negation_law of1 ->
    gives (denotes_g1 sb) of1 G1_COFACTOR 48 out P -> exists Q, selected sb (bits_le_val (bits_of_bytes out)) Q /\ P = smul G1_COFACTOR (of1 (Some Q)).
  Proof.
    intros L B Z N (Q & HQ & -> & NZ). destruct Q as [Q|]; [|exfalso; apply NZ; rewrite Z; apply smul_gz].
    exists Q. split; [|reflexivity]. apply denotes_selected; assumption.
  Qed.
  Lemma xof_is_native counter extra x : u8_var counter -> Forall u8_var extra ->
    direct_xof SIG_DOMAIN ([bits_le_val counter] ++ map bits_le_val extra ++ le_bytes 48 (fqv x)) 64 =
    Ok (xof_bytes SIG_DOMAIN (gadget_input counter extra x)).
  Proof. intros. apply xof_bytes_ok. rewrite sig_len. lia. Qed.
  Lemma xof_len m : length (xof_bytes SIG_DOMAIN m) = 64%nat /\ is_bytes (xof_bytes SIG_DOMAIN m) = true.
  Proof. apply xof_bytes_len. rewrite sig_len. lia. Qed.

  (** the native attempt and the gadget with its counter *)
  Lemma native_attempt m e P c : sqrt_spec qmul sqrt ->
    g1_attempt_cip22 compat (composite_hasher (native_ped ped)) E1 of1 G1_COFACTOR sqrt SIG_DOMAIN m e = Ok (P, c) ->
    exists x, ped m = Some x /\ 0 <= c < 255 /\
      gives (denotes_g1 sb) of1 G1_COFACTOR 48 (xof_bytes SIG_DOMAIN ([c] ++ e ++ le_bytes 48 (fqv x))) P.
  Proof.
    intros Hs H. apply cip22_ok with (denotes := denotes_g1 sb) in H.
    - destruct H as (inner & Hi & Hc & (out & Ho & Hl & Hg) & _). cbn [crh composite_hasher] in Hi. unfold native_ped in Hi.
      destruct (ped m) as [x|] eqn:Ex; [|discriminate Hi]. apply ok_inj in Hi. subst inner. exists x. split; [reflexivity|]. split; [exact Hc|].
      cbn [xof composite_hasher] in Ho. change (HashCurveModel.hash_length (Z.of_nat 48)) with 64 in Ho.
      rewrite xof_bytes_ok in Ho by (rewrite sig_len; lia). apply ok_inj in Ho. subst out. exact Hg.
    - intros l Q Hl Hb. apply g1_candidate_decode; assumption.
    - apply composite_bytes. intros m' out. unfold native_ped. destruct (ped m') as [x|]; [|discriminate]. intros E. apply ok_inj in E. subst out. apply le_bytes_is_bytes.
  Qed.
  Lemma gadget_at counter extra x : u8_var counter -> Forall u8_var extra ->
    gadget_input counter extra x = [bits_le_val counter] ++ map bits_le_val extra ++ le_bytes 48 (fqv x).
  Proof. reflexivity. Qed.
  Lemma native_in_gadget pin constrain counter message extra P : sqrt_spec qmul sqrt -> of1 None = gz -> negation_law of1 ->
    u8_var counter -> Forall u8_var extra ->
    g1_attempt_cip22 compat (composite_hasher (native_ped ped)) E1 of1 G1_COFACTOR sqrt SIG_DOMAIN
      (map bits_le_val message) (map bits_le_val extra) = Ok (P, bits_le_val counter) ->
    exists crh xof, prover (ehtg pin counter message extra constrain) = Val ((P, crh, xof), true).
  Proof.
    intros Hs Z N Hc He H. apply native_attempt in H; [|exact Hs]. destruct H as (x & Ex & _ & G).
    destruct (xof_len ([bits_le_val counter] ++ map bits_le_val extra ++ le_bytes 48 (fqv x))) as [L B].
    apply candidate_accepted in G; try assumption. destruct G as (Q & HQ & ->).
    exists (bits_of_bytes (le_bytes 48 (fqv x))), (gadget_xof counter extra x). apply enforce_hash_prover; assumption.
  Qed.
  Lemma any_counter pin counter message extra x P : of1 None = gz -> negation_law of1 -> u8_var counter -> Forall u8_var extra ->
    ped (map bits_le_val message) = Some x ->
    gives (denotes_g1 sb) of1 G1_COFACTOR 48 (xof_bytes SIG_DOMAIN ([bits_le_val counter] ++ map bits_le_val extra ++ le_bytes 48 (fqv x))) P ->
    exists crh xof, holds (ehtg pin counter message extra true) (P, crh, xof).
  Proof.
    intros Z N Hc He Ex G. destruct (xof_len ([bits_le_val counter] ++ map bits_le_val extra ++ le_bytes 48 (fqv x))) as [L B].
    apply candidate_accepted in G; try assumption. destruct G as (Q & HQ & ->).
    exists (bits_of_bytes (le_bytes 48 (fqv x))), (gadget_xof counter extra x). apply enforce_hash_holds; try assumption.
    exists x. split; [exact Ex|]. split; [reflexivity|]. split; [reflexivity|].
    assert (T : holds (htg true (gadget_xof counter extra x)) (smul G1_COFACTOR (of1 (Some Q)))).
    { apply hash_to_group_pinned; [apply gadget_xof_len|]. left. exists Q. split; [exact HQ|reflexivity]. }
    destruct pin; [exact T|]. apply hash_to_group_holds in T; [|apply gadget_xof_len]. apply hash_to_group_holds; [apply gadget_xof_len|].
    destruct T as (X & Y & W & Hv & Hx & Hg & E). exists X, Y, W. split; [|auto].
    unfold g1_valid, valid_triple in *. rewrite andb_true_iff in Hv. destruct Hv as [-> _]. reflexivity.
  Qed.

  (** ** Bits left free: every point of the curve can be selected *)
  Definition digest_for (Q : fq * fq) : list bool :=
    byte_bits 512 (fqv (fst Q) + if half <? fqv (snd Q) then 2 ^ sb else 0).
  Lemma digest_for_val Q : bits_le_val (digest_for Q) = fqv (fst Q) + if half <? fqv (snd Q) then 2 ^ sb else 0.
  Proof.
    unfold digest_for. rewrite byte_bits_val. apply Z.mod_small. pose proof (fqv_range (fst Q)) as R.
    assert (p < 2 ^ 377) by (vm_compute; reflexivity). assert (S : 0 <= (if half <? fqv (snd Q) then 2 ^ sb else 0) <= 2 ^ 383).
    { destruct (_ <? _), compat; cbn [g1_sign_bit]; split; try apply Z.pow_le_mono_r; try apply Z.pow_nonneg; lia. }
    assert (2 ^ 377 + 2 ^ 383 < 2 ^ Z.of_nat 512) by (vm_compute; reflexivity). lia.
  Qed.
  Lemma digest_for_selected Q : g1_equation Q -> selected sb (bits_le_val (digest_for Q)) Q.
  Proof.
    intros HE. rewrite digest_for_val. pose proof (fqv_range (fst Q)) as R. assert (p < 2 ^ 377) as P377 by (vm_compute; reflexivity).
    split; [exact HE|]. rewrite larger1_half. destruct Q as [x y]. cbn [fst snd] in *.
    assert (D : exists k, 2 ^ sb = 2 ^ 377 * 2 ^ k /\ sb = 377 + k /\ 0 <= k).
    { unfold g1_sign_bit. destruct compat; [exists 0|exists 6]; split; try reflexivity; split; lia. }
    destruct D as (k & D & D' & K0). destruct (Z.ltb_spec half (fqv y)) as [Hy|Hy].
    - rewrite D. split; [rewrite Z.add_comm, Z.mul_comm, Z.add_comm, Z.mod_add by lia; rewrite Z.mod_small by lia; reflexivity|].
      split; [intros _; exact Hy|intros _]. rewrite D', testbit_high by lia. rewrite Z.pow2_bits_true by lia. reflexivity.
    - rewrite Z.add_0_r, Z.mod_small by lia. split; [reflexivity|]. split; [|lia]. intros T. exfalso.
      rewrite <- (Z.mod_small (fqv x) (2 ^ 377)) in T by lia. rewrite Z.mod_pow2_bits_high in T by lia. discriminate.
  Qed.
  Lemma free_xof_any_point pin counter message extra x Q : ped (map bits_le_val message) = Some x -> g1_equation Q ->
    exists crh xof, holds (ehtg pin counter message extra false) (smul G1_COFACTOR (of1 (Some Q)), crh, xof).
  Proof.
    intros Ex HE. exists (bits_of_bytes (le_bytes 48 (fqv x))), (digest_for Q). apply enforce_hash_free.
    assert (Ld : length (digest_for Q) = 512%nat) by apply byte_bits_length.
    exists x. split; [exact Ex|]. split; [reflexivity|]. split; [exact Ld|].
    assert (T : holds (htg true (digest_for Q)) (smul G1_COFACTOR (of1 (Some Q)))).
    { apply hash_to_group_pinned; [exact Ld|]. left. exists Q. split; [apply digest_for_selected, HE|reflexivity]. }
    destruct pin; [exact T|]. apply hash_to_group_holds in T; [|exact Ld]. apply hash_to_group_holds; [exact Ld|].
    destruct T as (X & Y & W & Hv & Hx & Hg & E). exists X, Y, W. split; [|auto].
    unfold g1_valid, valid_triple in *. rewrite andb_true_iff in Hv. destruct Hv as [-> _]. reflexivity.
  Qed.

  (** ** Last coordinate left free: every abscissa opens to every point, up to sign *)
  Lemma sign_choice Y s : Y <> q0 -> exists t, (t = Y \/ t = qopp Y) /\ (s = true <-> larger1 t).
  Proof.
    intros NZ. assert (D : forall t, t <> q0 -> larger1 t \/ larger1 (qopp t)).
    { intros t Ht. unfold larger1. rewrite q_opp_opp. destruct (Z.lt_trichotomy (fqv (qopp t)) (fqv t)) as [H|[H|H]]; [auto| |auto].
      exfalso. apply Ht. apply fq_ext in H. assert (S : qadd t t = q0) by (rewrite <- H at 1; ring).
      destruct (fq_integral (qadd q1 q1) t) as [T|T]; [rewrite <- S; ring| |exact T]. exfalso. apply (f_equal fqv) in T. vm_compute in T. discriminate. }
    assert (N : forall t, larger1 t -> ~ larger1 (qopp t)). { intros t H H'. unfold larger1 in *. rewrite q_opp_opp in H'. lia. }
    destruct s, (D Y NZ) as [H|H].
    - exists Y. split; [auto|]. split; auto.
    - exists (qopp Y). split; [auto|]. split; auto.
    - exists (qopp Y). split; [auto|]. split; [discriminate|]. intros H'. exfalso. exact (N _ H H').
    - exists Y. split; [auto|]. split; [discriminate|]. intros H'. exfalso. exact (N _ H' H).
  Qed.
  Lemma any_point xof Q : length xof = 512%nat -> 0 < bits_le_val xof mod 2 ^ 377 < p ->
    g1_equation Q -> fst Q <> q0 -> snd Q <> q0 ->
    holds (htg false xof) (smul G1_COFACTOR (of1 (Some Q))) \/ holds (htg false xof) (smul G1_COFACTOR (of1 (Some (fst Q, qopp (snd Q))))).
  Proof.
    intros L R HE X0 Y0. destruct Q as [x y]. cbn [fst snd] in *. set (v := bits_le_val xof mod 2 ^ 377) in *.
    assert (FV : fqv (fq_of v) = v) by (rewrite fqv_of; apply Z.mod_small; lia).
    assert (V0 : fq_of v <> q0). { intros E. apply (f_equal fqv) in E. rewrite FV in E. change (fqv q0) with 0 in E. lia. }
    set (W := qdiv (fq_of v) x).
    assert (XW : qmul x W = fq_of v) by (unfold W; field; exact X0).
    assert (W0 : W <> q0). { intros E. apply V0. rewrite <- XW, E. ring. }
    assert (YW : qmul y W <> q0). { intros E. destruct (fq_integral _ _ E); contradiction. }
    assert (G : forall y', g1_equation (x, y') -> (Z.testbit (bits_le_val xof) sb = true <-> larger1 (qmul y' W)) ->
      holds (htg false xof) (smul G1_COFACTOR (of1 (Some (x, y'))))).
    { intros y' HE' Hs. apply hash_to_group_holds; [exact L|]. exists (qmul x W), (qmul y' W), W. split.
      - apply (valid_scaled _ _ _ _ _ _ _ _ _ _ fq_field qeqb_spec); [exact W0|]. apply on_g1_eq, HE'.
      - rewrite XW. split; [exact FV|]. split; [apply g1_y_to_bit_holds; left; exact Hs|]. f_equal. f_equal. symmetry.
        rewrite <- XW. apply (aff_scaled _ _ _ _ _ _ _ _ _ fq_field qeqb_spec), W0. }
    destruct (sign_choice _ (Z.testbit (bits_le_val xof) sb) YW) as (t & [-> | ->] & Ht).
    - left. apply G; [exact HE|exact Ht].
    - right. apply G.
      + unfold g1_equation in *. cbn [fst snd] in *. rewrite <- HE. ring.
      + assert (qopp (qmul y W) = qmul (qopp y) W) as <- by ring. exact Ht.
  Qed.
End Native.

(** ** Packing *)
Lemma chunk_bits chunk (fp : fq) : (length chunk <= 377)%nat ->
  skipn (377 - length chunk) (to_bits_be fp) = chunk <-> fqv fp mod 2 ^ Z.of_nat (length chunk) = from_bits_be chunk.
Proof.
  intros L. unfold to_bits_be, from_bits_be. rewrite skipn_rev, to_bits_le_length. replace (377 - (377 - length chunk))%nat with (length chunk) by lia.
  rewrite <- to_bits_le_val, <- bits_le_val_firstn. split.
  - intros H. apply (f_equal (@rev bool)) in H. rewrite rev_involutive in H. rewrite H. reflexivity.
  - intros H. apply bits_le_val_inj in H; [rewrite H; apply rev_involutive|]. rewrite firstn_length, to_bits_le_length, rev_length. lia.
Qed.
Lemma pack_chunk_holds chunk fp : (length chunk <= 377)%nat ->
  holds (pack_chunk chunk) fp <-> fqv fp mod 2 ^ Z.of_nat (length chunk) = from_bits_be chunk.
Proof.
  intros L. rewrite <- chunk_bits by exact L. unfold pack_chunk. assert ((length chunk <=? MODULUS_BITS)%nat = true) as -> by (apply Nat.leb_le; exact L).
  assert (LL : length (skipn (MODULUS_BITS - length chunk) (to_bits_be fp)) = length chunk).
  { rewrite skipn_length. unfold to_bits_be. rewrite rev_length, to_bits_le_length. unfold MODULUS_BITS. lia. }
  split.
  - intros H. apply holds_bind in H as (x & _ & H). apply holds_bind in H as (u & H & E). cbn [holds] in E. subst x. apply (proj1 (enforce_bits_holds _ _ _ LL)) in H. exact H.
  - intros H. apply holds_bind. exists fp. split; [apply holds_witness|]. apply holds_bind. exists tt. split; [|reflexivity].
    apply enforce_bits_holds; [exact LL|exact H].
Qed.
Lemma pack_chunk_prover chunk : (length chunk <= 376)%nat -> prover (pack_chunk chunk) = Val (fq_of (from_bits_be chunk), true).
Proof.
  intros L. unfold pack_chunk. assert ((length chunk <=? MODULUS_BITS)%nat = true) as -> by (apply Nat.leb_le; unfold MODULUS_BITS; lia).
  pose proof (from_bits_be_bound chunk) as B. assert (P : 2 ^ 376 <= p) by (vm_compute; discriminate).
  assert (M : 2 ^ Z.of_nat (length chunk) <= 2 ^ 376) by (apply Z.pow_le_mono_r; lia).
  unfold from_repr. assert (from_bits_be chunk <? p = true) as -> by (apply Z.ltb_lt; lia).
  apply (prover_bind_val _ _ (fq_of (from_bits_be chunk))); [reflexivity|]. apply (prover_bind_val _ _ tt); [|reflexivity].
  assert (E : skipn (MODULUS_BITS - length chunk) (to_bits_be (fq_of (from_bits_be chunk))) = chunk).
  { apply chunk_bits; [lia|]. rewrite fqv_of, (Z.mod_small _ p) by lia. apply Z.mod_small. lia. }
  rewrite E. apply enforce_bits_prover.
Qed.
Lemma multipack_holds bits n inputs : (0 < n <= 377)%nat ->
  holds (multipack bits n) inputs <->
  Forall2 (fun chunk fp => fqv fp mod 2 ^ Z.of_nat (length chunk) = from_bits_be chunk) (chunks n bits) inputs.
Proof.
  intros [N0 N]. assert (E : multipack bits n = cmap pack_chunk (chunks n bits)) by (destruct n; [lia|reflexivity]). rewrite E, holds_cmap.
  pose proof (chunks_forall_len n bits N0) as F. clear E. split; intros H.
  - induction H as [|c fp cs fps H _ IH]; constructor; inversion F; subst; [apply pack_chunk_holds; [lia|exact H]|auto].
  - induction H as [|c fp cs fps H _ IH]; constructor; inversion F; subst; [apply pack_chunk_holds; [lia|exact H]|auto].
Qed.
Lemma multipack_prover bits n : (0 < n <= 376)%nat ->
  prover (multipack bits n) = Val (map (fun c => fq_of (from_bits_be c)) (chunks n bits), true).
Proof.
  intros [N0 N]. assert (E : multipack bits n = cmap pack_chunk (chunks n bits)) by (destruct n; [lia|reflexivity]). rewrite E.
  apply prover_cmap. intros c Hc. apply pack_chunk_prover. pose proof (chunks_forall_len n bits N0) as F.
  rewrite Forall_forall in F. specialize (F _ Hc). cbv beta in F. lia.
Qed.
Lemma pack_native bits n l : (0 < n <= 376)%nat -> pack p n bits = Some l ->
  exists inputs, prover (multipack bits n) = Val (inputs, true) /\ map fqv inputs = l.
Proof.
  intros N H. assert (P : 2 ^ Z.of_nat n <= p).
  { transitivity (2 ^ 376); [apply Z.pow_le_mono_r; lia|vm_compute; discriminate]. }
  rewrite pack_ok in H by (try exact P; lia). injection H as <-.
  exists (map (fun c => fq_of (from_bits_be c)) (chunks n bits)). split; [apply multipack_prover, N|].
  rewrite map_map. apply map_ext_in. intros c Hc. rewrite fqv_of. apply Z.mod_small. pose proof (chunks_forall_len n bits (proj1 N)) as F.
  rewrite Forall_forall in F. specialize (F _ Hc). pose proof (from_bits_be_bound c) as B.
  assert (2 ^ Z.of_nat (length c) <= 2 ^ Z.of_nat n) by (apply Z.pow_le_mono_r; lia). lia.
Qed.
Lemma pack_satisfied bits n l inputs : (0 < n <= 376)%nat -> pack p n bits = Some l -> map fqv inputs = l -> holds (multipack bits n) inputs.
Proof.
  intros N H E. destruct (pack_native _ _ _ N H) as (i & Hi & Ei). assert (inputs = i) as ->.
  { rewrite <- E in Ei. clear -Ei. revert i Ei. induction inputs as [|a l IH]; intros [|b i] Ei; try discriminate Ei; [reflexivity|].
    cbn [map] in Ei. injection Ei as E1 E2. apply fq_ext in E1. f_equal; [congruence|apply IH; exact E2]. }
  apply prover_holds, Hi.
Qed.
Lemma pack_determines bits bits' n inputs : (0 < n <= 377)%nat -> length bits = length bits' ->
  holds (multipack bits n) inputs -> holds (multipack bits' n) inputs -> bits = bits'.
Proof.
  intros N L H H'. apply multipack_holds in H; [|exact N]. apply multipack_holds in H'; [|exact N].
  assert (C : chunks n bits = chunks n bits').
  { pose proof (chunks_shape n bits bits' ltac:(lia) L) as S. revert S H'. clear -H. generalize (chunks n bits'). revert H.
    induction 1 as [|c fp cs fps H _ IH]; intros l' Hl H'; inversion H'; subst; try discriminate Hl; [reflexivity|].
    cbn [map] in Hl. injection Hl as E1 E2. f_equal; [|apply IH; assumption]. apply from_bits_be_inj; [exact E1|]. rewrite E1 in H. congruence. }
  rewrite <- (concat_chunks n bits), <- (concat_chunks n bits'), C by lia. reflexivity.
Qed.
Lemma high_bits_free : exists bits inputs inputs', inputs <> inputs' /\
  holds (multipack bits CAPACITY) inputs /\ holds (multipack bits CAPACITY) inputs'.
Proof.
  exists [true], [fq_of 1], [fq_of 3]. split.
  - intros H. apply (f_equal (map fqv)) in H. vm_compute in H. discriminate.
  - split; (apply multipack_holds; [unfold CAPACITY; lia|]); repeat constructor.
Qed.

(** ** The gadget with its constraints, in terms of the native hasher *)
Lemma selected_unique s v Q Q' : selected s v Q -> selected s v Q' -> Q = Q'.
Proof.
  destruct Q as [x y], Q' as [x' y']. intros (H & Hx & Hs) (H' & Hx' & Hs'). cbn [fst snd] in *.
  assert (x = x') as -> by (apply fq_ext; congruence). f_equal. unfold g1_equation in *. cbn [fst snd] in *.
  destruct (fq_integral (qsub y y') (qadd y y')) as [E|E].
  { transitivity (qsub (qmul y y) (qmul y' y')); [ring|]. rewrite H, H'. ring. }
  - transitivity (qadd (qsub y y') y'); [ring|]. rewrite E. ring.
  - assert (y = qopp y') as ->. { transitivity (qsub (qadd y y') y'); [ring|]. rewrite E. ring. }
    assert (L : larger1 (qopp y') <-> larger1 y') by (rewrite <- Hs, <- Hs'; reflexivity).
    unfold larger1 in L. rewrite q_opp_opp in L. destruct (Z.lt_trichotomy (fqv y') (fqv (qopp y'))) as [T|[T|T]].
    + exfalso. pose proof (proj1 L T). lia.
    + symmetry. apply fq_ext, T.
    + exfalso. pose proof (proj2 L T). lia.
Qed.
Lemma gadget_sound {E1 : grp} (of1 : apoint fq -> E1) sqrt ped (compat : bool) counter message extra h crh_bits xof_bits :
  u8_var counter -> Forall u8_var extra ->
  holds (enforce_hash_to_group of1 sqrt ped compat true counter message extra true) (h, crh_bits, xof_bits) <->
  exists inner digest,
    crh (composite_hasher (native_ped ped)) SIG_DOMAIN (map bits_le_val message) 0 = Ok inner /\ bits_are crh_bits inner /\
    xof (composite_hasher (native_ped ped)) SIG_DOMAIN ([bits_le_val counter] ++ map bits_le_val extra ++ inner) 64 = Ok digest /\
    bits_are xof_bits digest /\
    ((exists Q, selected (g1_sign_bit compat) (number digest) Q /\ h = smul G1_COFACTOR (of1 (Some Q))) \/
     (number digest mod 2 ^ 377 = 0 /\ Z.testbit (number digest) (g1_sign_bit compat) = false /\ h = smul G1_COFACTOR (of1 None))).
Proof.
  intros Hc He. rewrite enforce_hash_holds by assumption. cbn [crh xof composite_hasher].
  assert (V : forall x, bits_le_val (gadget_xof counter extra x) = number (xof_bytes SIG_DOMAIN (gadget_input counter extra x))).
  { intros x. unfold gadget_xof. rewrite bits_of_bytes_val by apply xof_len. reflexivity. }
  split.
  - intros (x & Ex & -> & -> & Hh). apply hash_to_group_pinned in Hh; [|apply gadget_xof_len]. rewrite V in Hh.
    exists (le_bytes 48 (fqv x)), (xof_bytes SIG_DOMAIN (gadget_input counter extra x)).
    split; [unfold native_ped; rewrite Ex; reflexivity|]. split; [apply bits_are_iff; reflexivity|].
    split; [apply xof_is_native; assumption|]. split; [apply bits_are_iff; reflexivity|exact Hh].
  - intros (inner & digest & Hi & Bi & Hd & Bd & Hh). unfold native_ped in Hi.
    destruct (ped (map bits_le_val message)) as [x|] eqn:Ex; [|discriminate Hi]. apply ok_inj in Hi. subst inner.
    rewrite xof_is_native in Hd by assumption. apply ok_inj in Hd. subst digest. apply bits_are_iff in Bi, Bd.
    exists x. split; [reflexivity|]. split; [exact Bi|]. split; [exact Bd|]. rewrite Bd. apply hash_to_group_pinned; [apply gadget_xof_len|].
    change (bits_of_bytes (xof_bytes SIG_DOMAIN (gadget_input counter extra x))) with (gadget_xof counter extra x). rewrite V. exact Hh.
Qed.
Lemma gadget_free {E1 : grp} (of1 : apoint fq -> E1) sqrt ped (compat : bool) counter message extra h crh_bits xof_bits :
  holds (enforce_hash_to_group of1 sqrt ped compat true counter message extra false) (h, crh_bits, xof_bits) <->
  exists inner, native_ped ped (map bits_le_val message) = Ok inner /\ bits_are crh_bits inner /\ length xof_bits = 512%nat /\
    ((exists Q, selected (g1_sign_bit compat) (bits_le_val xof_bits) Q /\ h = smul G1_COFACTOR (of1 (Some Q))) \/
     (bits_le_val xof_bits mod 2 ^ 377 = 0 /\ Z.testbit (bits_le_val xof_bits) (g1_sign_bit compat) = false /\ h = smul G1_COFACTOR (of1 None))).
Proof.
  rewrite enforce_hash_free. split.
  - intros (x & Ex & -> & L & Hh). apply hash_to_group_pinned in Hh; [|exact L]. exists (le_bytes 48 (fqv x)).
    split; [unfold native_ped; rewrite Ex; reflexivity|]. split; [apply bits_are_iff; reflexivity|]. auto.
  - intros (inner & Hi & Bi & L & Hh). unfold native_ped in Hi.
    destruct (ped (map bits_le_val message)) as [x|] eqn:Ex; [|discriminate Hi]. apply ok_inj in Hi. subst inner. apply bits_are_iff in Bi.
    exists x. split; [reflexivity|]. split; [exact Bi|]. split; [exact L|]. apply hash_to_group_pinned; assumption.
Qed.
