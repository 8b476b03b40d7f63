(** Proofs about the hash-to-group gadget and the packing gadget. *)
From Coq Require Import Field.
From Verif Require Import Base Constants Group Field Curve BlsModel BlsSpec BitsModel BitsProofs EncodingModel EncodingSpec EncodingProofs Blake2 HasherModel HasherSpec
  HasherProofs PointModel HashCurveModel HashCurveSpec PointProofs HashCurveProofs CodecSpec Circuit CircuitFacts GadgetModel GadgetSpec CubeFacts
  GadgetProofs HashGadgetModel HashGadgetSpec.
Local Open Scope circ_scope.
Local Opaque p half.

(** ** Allocation of points *)
Section Alloc.
  Context {K : Type} (k0 k1 : K) (kadd kmul ksub : K -> K -> K) (kopp : K -> K) (kdiv : K -> K -> K) (kinv : K -> K) (keqb : K -> K -> bool) (b : K).
  Context (FT : field_theory k0 k1 kadd kmul ksub kopp kdiv kinv (@eq K)) (E : forall x y, keqb x y = true <-> x = y).
  Add Field Kf : FT.
  Notation on := (on_curve K kadd kmul keqb b).
  Notation valid := (valid_triple k0 k1 kmul ksub keqb b).
  Notation aff := (affine k0 kdiv keqb).
  Notation tri := (triple_of k0 k1).
  Lemma k_refl x : keqb x x = true. Proof. apply E. reflexivity. Qed.
  Lemma k10 : k1 <> k0. Proof. apply (F_1_neq_0 FT). Qed.
  Lemma k_no x y : keqb x y = false <-> x <> y.
  Proof. destruct (keqb x y) eqn:X; split; intros H; try discriminate; try reflexivity; [apply E in X; congruence|intros Y; apply E in Y; congruence]. Qed.
  Lemma kint x y : kmul x y = k0 -> x = k0 \/ y = k0.
  Proof.
    intros H. destruct (keqb x k0) eqn:X; [left; apply E, X|right]. apply k_no in X.
    transitivity (kmul (kinv x) (kmul x y)); [field; exact X|]. rewrite H. ring.
  Qed.
  Lemma alloc_holds pin h t : holds (alloc_point k0 k1 kmul ksub keqb b pin h) t <-> valid pin t = true.
  Proof.
    unfold alloc_point. split.
    - intros H. apply holds_bind in H as (x & _ & H). apply holds_bind in H as (u & Hv & H). apply holds_enforce in Hv. cbn in H. congruence.
    - intros H. apply holds_bind. exists t. split; [apply holds_witness|]. apply holds_bind. exists tt. split; [apply holds_enforce, H|reflexivity].
  Qed.
  Lemma alloc_prover pin P : prover (alloc_point k0 k1 kmul ksub keqb b pin (Val P)) = Val (tri P, valid pin (tri P)).
  Proof. unfold alloc_point. cbn [witness smap cbind prover enforce]. rewrite andb_true_r. reflexivity. Qed.
  Lemma aff_tri P : aff (tri P) = P.
  Proof.
    destruct P as [[x y]|]; cbn [triple_of affine].
    - assert (keqb k1 k0 = false) as -> by (apply k_no, k10). f_equal. f_equal; field; apply k10.
    - rewrite k_refl. reflexivity.
  Qed.
  Lemma valid_tri pin P : valid pin (tri P) = on P.
  Proof.
    unfold valid_triple. destruct P as [[x y]|]; cbn [triple_of on_projective degenerate pinned on_curve].
    - rewrite (k_refl k1). cbn [orb]. rewrite orb_true_r, andb_true_r.
      assert (keqb k1 k0 = false) as -> by (apply k_no, k10). rewrite andb_false_r. cbn [negb]. rewrite andb_true_r.
      apply eq_iff_eq_true. rewrite !E. split; intros H.
      + transitivity (kadd (kmul k1 (ksub (kmul y y) (kmul b (kmul k1 k1)))) b); [ring|]. rewrite H. ring.
      + rewrite H. ring.
    - rewrite !k_refl. assert (keqb k1 k0 = false) as -> by (apply k_no, k10). rewrite andb_false_r. cbn [andb orb negb].
      rewrite !orb_true_r, !andb_true_r. apply E. ring.
  Qed.
  (** with the last coordinate pinned, the variables are exactly the points of the curve *)
  Lemma valid_pinned t : valid true t = true <-> exists P, on P = true /\ t = tri P.
  Proof.
    split; [|intros (P & H & ->); rewrite valid_tri; exact H]. intros H. destruct t as [[X Y] Z].
    assert (P : pinned k0 k1 keqb (X, Y, Z) = true). { unfold valid_triple in H. rewrite !andb_true_iff in H. apply H. }
    cbn [pinned] in P. rewrite orb_true_iff, !andb_true_iff, !E in P. destruct P as [-> | [[-> ->] ->]].
    - exists (Some (X, Y)). split; [|reflexivity]. rewrite <- (valid_tri true). exact H.
    - exists None. split; reflexivity.
  Qed.
  Lemma valid_on pin t : valid pin t = true -> on (aff t) = true.
  Proof.
    destruct t as [[X Y] Z]. unfold valid_triple. rewrite !andb_true_iff. intros [[H _] _]. cbn [on_projective] in H. apply E in H.
    cbn [affine]. destruct (keqb Z k0) eqn:NZ; [reflexivity|]. apply k_no in NZ. cbn [on_curve]. apply E.
    transitivity (kadd (kdiv (kmul Z (ksub (kmul Y Y) (kmul b (kmul Z Z)))) (kmul Z (kmul Z Z))) b); [field; exact NZ|].
    rewrite H. field. exact NZ.
  Qed.
  Lemma valid_inf pin X Y : valid pin (X, Y, k0) = true -> X = k0.
  Proof.
    unfold valid_triple. rewrite !andb_true_iff. intros [[H _] _]. cbn [on_projective] in H. apply E in H.
    assert (X3 : kmul X (kmul X X) = k0). { rewrite <- H. ring. }
    apply kint in X3. destruct X3 as [X3|X3]; [exact X3|]. apply kint in X3. tauto.
  Qed.
  Lemma valid_scaled x y Z : Z <> k0 -> on (Some (x, y)) = true -> valid false (kmul x Z, kmul y Z, Z) = true.
  Proof.
    intros NZ H. cbn [on_curve] in H. apply E in H. unfold valid_triple. cbn [negb orb]. rewrite andb_true_r, andb_true_iff. split.
    - cbn [on_projective]. apply E. transitivity (kmul (kmul Z (kmul Z Z)) (ksub (kmul y y) b)); [ring|]. rewrite H. ring.
    - cbn [degenerate]. rewrite negb_true_iff, !andb_false_iff. right. apply k_no, NZ.
  Qed.
  Lemma aff_scaled x y Z : Z <> k0 -> aff (kmul x Z, kmul y Z, Z) = Some (x, y).
  Proof. intros NZ. cbn [affine]. apply k_no in NZ as NZ'. rewrite NZ'. f_equal. f_equal; field; exact NZ. Qed.
End Alloc.
Definition alloc_g1_holds pin h t := alloc_holds q0 q1 qmul qsub qeqb G1_B pin h t.
Definition alloc_g2_holds pin h t := alloc_holds q2_0 q2_1 q2mul q2sub q2eqb TWIST_B pin h t.
Definition g1_valid pin t := valid_triple q0 q1 qmul qsub qeqb G1_B pin t.
Definition g2_valid pin t := valid_triple q2_0 q2_1 q2mul q2sub q2eqb TWIST_B pin t.
Definition tri1 : apoint fq -> @triple fq := triple_of q0 q1.
Definition tri2 : apoint fq2 -> @triple fq2 := triple_of q2_0 q2_1.
Lemma g1_valid_pinned t : g1_valid true t = true <-> exists P, on_g1 P = true /\ t = tri1 P.
Proof. exact (valid_pinned _ _ _ _ _ _ _ _ _ _ fq_field qeqb_spec t). Qed.
Lemma g2_valid_pinned t : g2_valid true t = true <-> exists P, on_twist P = true /\ t = tri2 P.
Proof. exact (valid_pinned _ _ _ _ _ _ _ _ _ _ fq2_field q2eqb_spec t). Qed.
Lemma g1_valid_tri pin P : g1_valid pin (tri1 P) = on_g1 P.
Proof. exact (valid_tri _ _ _ _ _ _ _ _ _ _ fq_field qeqb_spec pin P). Qed.
Lemma g2_valid_tri pin P : g2_valid pin (tri2 P) = on_twist P.
Proof. exact (valid_tri _ _ _ _ _ _ _ _ _ _ fq2_field q2eqb_spec pin P). Qed.
Lemma affine1_tri P : affine1 (tri1 P) = P. Proof. exact (aff_tri _ _ _ _ _ _ _ _ _ fq_field qeqb_spec P). Qed.
Lemma affine2_tri P : affine2 (tri2 P) = P. Proof. exact (aff_tri _ _ _ _ _ _ _ _ _ fq2_field q2eqb_spec P). Qed.

(** ** Bits *)
Lemma to_bits_le_length x : length (to_bits_le x) = 377%nat.
Proof. unfold to_bits_le. rewrite map_length, seq_length. reflexivity. Qed.
Lemma testbits_val n v : 0 <= v -> bits_le_val (map (fun i => Z.testbit v (Z.of_nat i)) (seq 0 n)) = v mod 2 ^ Z.of_nat n.
Proof.
  intros _. rewrite <- byte_bits_testbit. apply byte_bits_val.
Qed.
Lemma to_bits_le_val x : bits_le_val (to_bits_le x) = fqv x.
Proof.
  unfold to_bits_le. pose proof (fqv_range x) as R. rewrite testbits_val by lia. apply Z.mod_small.
  assert (p < 2 ^ Z.of_nat 377) by (vm_compute; reflexivity). lia.
Qed.
Lemma bits_le_val_nth l i : Z.testbit (bits_le_val l) (Z.of_nat i) = nth i l false.
Proof.
  revert i. induction l as [|b l IH]; intros i. { cbn [bits_le_val]. rewrite Z.bits_0. destruct i; reflexivity. }
  cbn [bits_le_val]. destruct i.
  - rewrite Z.bit0_odd, Z.odd_add_mul_2. destruct b; reflexivity.
  - rewrite Nat2Z.inj_succ. assert (H : (if b then 1 else 0) + 2 * bits_le_val l = 2 * bits_le_val l + Z.b2z b) by (destruct b; cbn [Z.b2z]; ring).
    rewrite H, Z.testbit_succ_r by lia. apply IH.
Qed.
Lemma enforce_equal_holds a b u : holds (enforce_equal a b) u <-> a = b.
Proof. unfold enforce_equal. rewrite holds_enforce. apply eqb_true_iff. Qed.
Lemma enforce_bits_holds a b u : length a = length b -> holds (enforce_bits a b) u <-> a = b.
Proof.
  intros L. unfold enforce_bits. rewrite holds_ceach. revert b L. induction a as [|x a IH]; intros [|y b] L; try discriminate L; cbn [combine].
  - split; [reflexivity|constructor].
  - injection L as L. split.
    + intros H. inversion H as [|z l H1 H2]; subst. apply enforce_equal_holds in H1. apply IH in H2; [congruence|exact L].
    + intros H. injection H as -> ->. constructor; [apply enforce_equal_holds; reflexivity|]. apply IH; [exact L|reflexivity].
Qed.
Lemma enforce_bits_prover a : prover (enforce_bits a a) = Val (tt, true).
Proof.
  unfold enforce_bits. apply prover_ceach. intros [x y] H. assert (x = y) as ->.
  { clear -H. induction a as [|z a IH]; [contradiction|]. cbn [combine] in H. destruct H as [H|H]; [congruence|auto]. }
  unfold enforce_equal. rewrite prover_enforce, eqb_reflx. reflexivity.
Qed.
Lemma bytes_of_bits_pack l : bytes_of_bits l = pack_bytes l. Proof. reflexivity. Qed.
Lemma bits_of_bytes_le l : bits_of_bytes l = bytes_le_to_bits_le l (8 * length l).
Proof. rewrite bytes_le_to_bits_le_eq, firstn_all2; [reflexivity|]. rewrite flat_bits_length. apply Nat.le_refl. Qed.
Lemma bytes_bits l : is_bytes l = true -> bytes_of_bits (bits_of_bytes l) = l.
Proof. intros H. rewrite bits_of_bytes_le. apply bytes_roundtrip, H. Qed.
Lemma bits_of_bytes_length l : length (bits_of_bytes l) = (8 * length l)%nat. Proof. apply flat_bits_length. Qed.
Lemma bits_of_bytes_val l : is_bytes l = true -> bits_le_val (bits_of_bytes l) = le_val l. Proof. apply flat_bits_val. Qed.
Lemma bits_are_iff l bs : bits_are l bs <-> l = bits_of_bytes bs.
Proof. unfold bits_are, bits_of_bytes. rewrite (flat_map_ext (byte_bits 8) (fun b => map (fun i => Z.testbit b (Z.of_nat i)) (seq 0 8)));
  [reflexivity|intros b; apply byte_bits_testbit]. Qed.
Lemma u8_bits b : u8_var b -> byte_bits 8 (bits_le_val b) = b.
Proof.
  intros L. apply bits_le_val_inj; [rewrite byte_bits_length; symmetry; exact L|]. rewrite byte_bits_val. apply Z.mod_small.
  pose proof (bits_le_val_bound b) as B. rewrite L in B. exact B.
Qed.
Lemma u8_bits_all l : Forall u8_var l -> concat l = bits_of_bytes (map bits_le_val l).
Proof. induction 1 as [|b l H _ IH]; [reflexivity|]. cbn [concat map bits_of_bytes flat_map]. rewrite u8_bits by exact H. f_equal. exact IH. Qed.
Lemma u8_is_bytes l : Forall u8_var l -> is_bytes (map bits_le_val l) = true.
Proof.
  induction 1 as [|b l H _ IH]; [reflexivity|]. cbn [map is_bytes forallb]. apply andb_true_iff. split; [|exact IH].
  pose proof (bits_le_val_bound b) as B. rewrite H in B. unfold is_byte. lia.
Qed.
Lemma bits_of_bytes_app a b : bits_of_bytes (a ++ b) = bits_of_bytes a ++ bits_of_bytes b.
Proof. apply flat_map_app. Qed.
Lemma pad_byte_fq x : pad_byte (to_bits_le x) = bits_of_bytes (le_bytes 48 (fqv x)).
Proof.
  unfold pad_byte. rewrite to_bits_le_length. change ((8 - 377 mod 8) mod 8)%nat with 7%nat.
  apply bits_le_val_inj.
  - rewrite app_length, to_bits_le_length, bits_of_bytes_length, le_bytes_length. reflexivity.
  - rewrite bits_le_val_app, bits_le_val_zeros, to_bits_le_val, bits_of_bytes_val, le_bytes_val by apply le_bytes_is_bytes.
    rewrite Z.mul_0_r, Z.add_0_r, Z.mod_small; [reflexivity|]. pose proof (fqv_range x).
    assert (p < 256 ^ Z.of_nat 48) by (vm_compute; reflexivity). lia.
Qed.

(** ** The expansion *)
Lemma params_native d i len : length d = 8%nat -> 0 <= len -> 0 <= i < len / 256 -> len mod 256 = 0 -> len < 2 ^ 16 ->
  bp_bytes (blake2xs_params len i d) = param_block (xof_params d i (len / 8)).
Proof.
  intros Ld H0 Hi Hm Hb. assert (len = 256 * (len / 256)) as Q by (apply Z_div_exact_full_2; lia). set (n := len / 256) in *.
  assert (E8 : len / 8 = 32 * n) by (rewrite Q; replace (256 * n) with (32 * n * 8) by ring; apply Z.div_mul; lia).
  rewrite E8. unfold bp_bytes, param_block, xof_params, blake2xs_params. cbn [bp_digest_length bp_key_length bp_fan_out bp_depth bp_leaf_length bp_node_offset bp_xof_digest_length bp_node_depth bp_inner_length bp_salt bp_personalization HasherModel.hash_length fanout max_depth max_leaf_length node_offset inner_hash_length personal].
  rewrite E8. assert ((32 * n) mod 32 = 0) as M by (rewrite Z.mul_comm; apply Z.mod_mul; lia). rewrite M. change (negb (0 =? 0)) with false. rewrite andb_false_r.
  rewrite offset_bytes by lia. rewrite pad8_domain8 by lia. unfold domain8. rewrite Ld. change (repeat 0 (8 - 8)) with (@nil Z). rewrite !app_nil_r.
  rewrite <- !app_assoc. reflexivity.
Qed.
Lemma cmap_eval message ps ys : (length message mod 8 = 0)%nat ->
  holds (cmap (fun q => evaluate_blake2s message q) ps) ys <-> ys = map (fun q => bits_of_bytes (blake2s (bp_bytes q) (bytes_of_bits message))) ps.
Proof.
  intros L. unfold evaluate_blake2s. rewrite L, Nat.eqb_refl. rewrite holds_cmap. cbn [holds]. split.
  - induction 1 as [|q y ps ys H _ IH]; [reflexivity|]. cbn [map]. congruence.
  - intros ->. induction ps; cbn [map]; constructor; auto.
Qed.
Definition xof_bytes (d m : bytes) : bytes := flat_map (fun i => blake2s (param_block (xof_params d (Z.of_nat i) 64)) m) (seq 0 2).
Lemma xof_bytes_ok d m : (length d <= 8)%nat -> direct_xof d m 64 = Ok (xof_bytes d m).
Proof. intros H. rewrite xof_ok by (try exact H; lia). reflexivity. Qed.
Lemma xof_bytes_len d m : (length d <= 8)%nat -> length (xof_bytes d m) = 64%nat /\ is_bytes (xof_bytes d m) = true.
Proof.
  intros H. destruct (xof_spec d m 64 H) as (o & Ho & L & B & _); [lia|]. rewrite xof_bytes_ok in Ho by exact H.
  assert (xof_bytes d m = o) as -> by congruence. split; [lia|exact B].
Qed.
Lemma hash_to_bits_run message d : length d = 8%nat -> (length message mod 8 = 0)%nat ->
  HashGadgetModel.hash_to_bits message 512 d true = Ret (bits_of_bytes (xof_bytes d (bytes_of_bits message))).
Proof.
  intros Ld L. unfold HashGadgetModel.hash_to_bits. change (512 mod 256 =? 0) with true. cbv iota. change (Z.to_nat (512 / 256)) with 2%nat.
  cbn [seq cmap]. unfold evaluate_blake2s. rewrite L, Nat.eqb_refl. cbn [cbind concat].
  rewrite !params_native by (try exact Ld; vm_compute; intuition congruence). unfold xof_bytes. cbn [seq flat_map].
  rewrite !app_nil_r, bits_of_bytes_app. reflexivity.
Qed.
Lemma free_bits_holds (l : list bool) ys : holds (cmap (fun b => new_bool (Val b)) l) ys <-> length ys = length l.
Proof.
  rewrite holds_cmap. split.
  - induction 1; cbn; auto.
  - revert ys. induction l as [|b l IH]; intros [|y ys] L; try discriminate L; constructor; [apply holds_new_bool|]. apply IH. injection L as L. exact L.
Qed.
Lemma hash_to_bits_free message d ys : length d = 8%nat ->
  holds (HashGadgetModel.hash_to_bits message 512 d false) ys <-> length ys = 512%nat.
Proof.
  intros Ld. unfold HashGadgetModel.hash_to_bits. rewrite bits_le_to_bytes_le_ok. cbn [rbind]. rewrite xof_bytes_ok by lia.
  rewrite free_bits_holds, bytes_le_to_bits_le_length. destruct (xof_bytes_len d (pack_bytes message)) as [-> _]; [lia|]. reflexivity.
Qed.
Lemma hash_to_bits_free_prover message d : length d = 8%nat ->
  prover (HashGadgetModel.hash_to_bits message 512 d false) = Val (bits_of_bytes (xof_bytes d (pack_bytes message)), true).
Proof.
  intros Ld. unfold HashGadgetModel.hash_to_bits. rewrite bits_le_to_bytes_le_ok. cbn [rbind]. rewrite xof_bytes_ok by lia.
  rewrite (prover_cmap _ (fun b => b)) by (intros; apply prover_new_bool). rewrite map_id, bits_of_bytes_le.
  destruct (xof_bytes_len d (pack_bytes message)) as [-> _]; [lia|]. reflexivity.
Qed.

Lemma sig_len : length SIG_DOMAIN = 8%nat. Proof. reflexivity. Qed.

Section HashToGroup.
  Context {E1 : grp} (of1 : apoint fq -> E1) (sqrt : fq -> option fq) (ped : bytes -> option fq) (compat : bool).
  Notation htg := (HashGadgetModel.hash_to_group of1 sqrt compat).
  Notation ehtg := (enforce_hash_to_group of1 sqrt ped compat).

  Lemma sign_pos : Z.of_nat (SIGN_BIT_POSITION compat) = g1_sign_bit compat. Proof. destruct compat; reflexivity. Qed.
  Lemma sign_pos_lt : (SIGN_BIT_POSITION compat < 512)%nat. Proof. unfold SIGN_BIT_POSITION. destruct compat; lia. Qed.
  Lemma sign_nth xof : length xof = 512%nat ->
    nth_error xof (SIGN_BIT_POSITION compat) = Some (Z.testbit (bits_le_val xof) (g1_sign_bit compat)).
  Proof.
    intros L. rewrite <- sign_pos, bits_le_val_nth. apply nth_error_nth'. rewrite L. apply sign_pos_lt.
  Qed.
  Lemma x_bits_iff xof X : length xof = 512%nat -> to_bits_le X = firstn X_BITS xof <-> fqv X = bits_le_val xof mod 2 ^ 377.
  Proof.
    intros L. rewrite <- to_bits_le_val. split.
    - intros ->. rewrite bits_le_val_firstn. reflexivity.
    - intros H. apply bits_le_val_inj; [rewrite to_bits_le_length, firstn_length, L; reflexivity|]. rewrite bits_le_val_firstn. exact H.
  Qed.
  Lemma hash_to_group_holds pin xof h : length xof = 512%nat -> holds (htg pin xof) h <->
    exists X Y Z, g1_valid pin (X, Y, Z) = true /\ fqv X = bits_le_val xof mod 2 ^ 377 /\
      holds (g1_y_to_bit Y) (Z.testbit (bits_le_val xof) (g1_sign_bit compat)) /\ h = smul G1_COFACTOR (of1 (affine1 (X, Y, Z))).
  Proof.
    intros L. unfold HashGadgetModel.hash_to_group. rewrite (sign_nth _ L). split.
    - intros H. apply holds_bind in H as ([[X Y] Z] & Ha & H). apply alloc_g1_holds in Ha.
      apply holds_bind in H as (g & Hg & H). apply holds_bind in H as (u & Hx & H). apply holds_bind in H as (u' & Hs & H). cbn [holds] in H.
      apply enforce_bits_holds in Hx; [|rewrite to_bits_le_length, firstn_length, L; reflexivity]. apply (proj1 (x_bits_iff _ _ L)) in Hx.
      apply enforce_equal_holds in Hs. subst g. exists X, Y, Z. auto.
    - intros (X & Y & Z & Ha & Hx & Hg & ->). apply holds_bind. exists (X, Y, Z). split; [apply alloc_g1_holds, Ha|].
      apply holds_bind. exists (Z.testbit (bits_le_val xof) (g1_sign_bit compat)). split; [exact Hg|].
      apply holds_bind. exists tt. split; [apply enforce_bits_holds; [rewrite to_bits_le_length, firstn_length, L; reflexivity|apply x_bits_iff; assumption]|].
      apply holds_bind. exists tt. split; [apply enforce_equal_holds; reflexivity|reflexivity].
  Qed.
  Lemma on_g1_eq Q : on_g1 (Some Q) = true <-> g1_equation Q.
  Proof. destruct Q as [x y]. unfold on_g1, on_curve, g1_equation. cbn [fst snd]. apply qeqb_spec. Qed.
  Lemma hash_to_group_pinned xof h : length xof = 512%nat -> holds (htg true xof) h <->
    (exists Q, selected (g1_sign_bit compat) (bits_le_val xof) Q /\ h = smul G1_COFACTOR (of1 (Some Q))) \/
    (bits_le_val xof mod 2 ^ 377 = 0 /\ Z.testbit (bits_le_val xof) (g1_sign_bit compat) = false /\ h = smul G1_COFACTOR (of1 None)).
  Proof.
    intros L. rewrite hash_to_group_holds by exact L. split.
    - intros (X & Y & Z & Hv & Hx & Hg & ->). apply g1_valid_pinned in Hv as (P & HP & E). rewrite E, affine1_tri.
      destruct P as [[x y]|]; unfold tri1 in E; cbn [triple_of] in E; injection E as -> -> ->.
      + left. exists (x, y). split; [|reflexivity]. apply on_g1_eq in HP. split; [exact HP|]. split; [exact Hx|]. cbn [snd].
        apply g1_y_to_bit_holds in Hg as [Hg|Hg]; [exact Hg|]. apply (g1_no_midpoint (x, y)) in Hg; [contradiction|exact HP].
      + right. split; [rewrite <- Hx; reflexivity|]. split; [|reflexivity].
        destruct (Z.testbit _ _); [|reflexivity]. apply g1_y_to_bit_holds in Hg. exfalso. destruct Hg as [Hg|Hg].
        * assert (X : larger1 q1) by (apply Hg; reflexivity). revert X. unfold larger1. vm_compute. discriminate.
        * revert Hg. unfold midpoint. vm_compute. discriminate.
    - intros [((x & y) & (HQ & Hx & Hs) & ->)|(Hx & Hs & ->)].
      + exists x, y, q1. split; [apply g1_valid_pinned; exists (Some (x, y)); split; [apply on_g1_eq, HQ|reflexivity]|].
        split; [exact Hx|]. split; [apply g1_y_to_bit_holds; left; exact Hs|]. f_equal. f_equal. symmetry. apply (affine1_tri (Some (x, y))).
      + exists q0, q1, q0. split; [apply g1_valid_pinned; exists None; split; reflexivity|].
        split; [rewrite Hx; reflexivity|]. split; [|f_equal; f_equal; symmetry; apply (affine1_tri None)].
        apply g1_y_to_bit_holds. left. rewrite Hs. split; [discriminate|]. unfold larger1. vm_compute. discriminate.
  Qed.
  Lemma point_from_bits_ok xof Q : sqrt_spec qmul sqrt -> length xof = 512%nat -> selected (g1_sign_bit compat) (bits_le_val xof) Q ->
    point_from_bits sqrt (firstn X_BITS xof) (Z.testbit (bits_le_val xof) (g1_sign_bit compat)) = Val (Some Q).
  Proof.
    intros Hs L (HQ & Hx & Hg). destruct Q as [x y]. cbn [fst snd] in Hx, Hg. unfold point_from_bits.
    rewrite bits_le_val_firstn. change (2 ^ Z.of_nat X_BITS) with (2 ^ 377). rewrite <- Hx. pose proof (fqv_range x) as R. unfold from_repr.
    assert (fqv x <? p = true) as -> by (apply Z.ltb_lt; lia).
    assert (fq_of (fqv x) = x) as -> by (apply fq_ext; rewrite fqv_of; apply Z.mod_small; lia).
    assert (G : g1_point_from_x sqrt x (Z.testbit (bits_le_val xof) (g1_sign_bit compat)) = Some (Some (x, y))).
    { apply (g1_get_iff sqrt _ _ _ Hs). exists y. split; [reflexivity|]. split; [exact HQ|]. unfold le1, larger1 in *.
      destruct (Z.testbit (bits_le_val xof) (g1_sign_bit compat)); [assert (fqv (qopp y) < fqv y) by (apply Hg; reflexivity); lia|].
      destruct (Z.lt_ge_cases (fqv (qopp y)) (fqv y)) as [H|H]; [apply Hg in H; discriminate|exact H]. }
    rewrite G. reflexivity.
  Qed.
  Lemma hash_to_group_prover pin xof Q : sqrt_spec qmul sqrt -> length xof = 512%nat -> selected (g1_sign_bit compat) (bits_le_val xof) Q ->
    prover (htg pin xof) = Val (smul G1_COFACTOR (of1 (Some Q)), true).
  Proof.
    intros Hs L H. unfold HashGadgetModel.hash_to_group. rewrite (sign_nth _ L), (point_from_bits_ok _ _ Hs L H).
    destruct H as (HQ & Hx & Hg). destruct Q as [x y]. cbn [fst snd] in Hx, Hg.
    apply (prover_bind_val _ _ (tri1 (Some (x, y)))).
    { etransitivity; [exact (alloc_prover q0 q1 qmul qsub qeqb G1_B pin (Some (x, y)))|]. f_equal. f_equal.
      change (g1_valid pin (tri1 (Some (x, y))) = true). rewrite g1_valid_tri. apply on_g1_eq, HQ. }
    change (tri1 (Some (x, y))) with (x, y, q1). cbv iota.
    destruct (g1_y_to_bit_prover y) as (g & Pg & Sg).
    assert (g = Z.testbit (bits_le_val xof) (g1_sign_bit compat)) as ->. { apply eq_iff_eq_true. rewrite Sg, Hg. reflexivity. }
    apply (prover_bind_val _ _ _ _ Pg). apply (prover_bind_val _ _ tt).
    { apply (x_bits_iff xof x L) in Hx. rewrite Hx. apply enforce_bits_prover. }
    apply (prover_bind_val _ _ tt). { unfold enforce_equal. rewrite prover_enforce, eqb_reflx. reflexivity. }
    cbn [prover]. f_equal. f_equal. f_equal. f_equal. apply (affine1_tri (Some (x, y))).
  Qed.

  (** ** The whole gadget *)
  Definition gadget_input (counter : list bool) (extra : list (list bool)) (x : fq) : bytes :=
    [bits_le_val counter] ++ map bits_le_val extra ++ le_bytes 48 (fqv x).
  Lemma input_bytes counter extra x : u8_var counter -> Forall u8_var extra ->
    let input := counter ++ concat extra ++ pad_byte (to_bits_le x) in
    (length input mod 8 = 0)%nat /\ bytes_of_bits input = gadget_input counter extra x.
  Proof.
    intros Hc He. assert (I : counter ++ concat extra ++ pad_byte (to_bits_le x) = bits_of_bytes (gadget_input counter extra x)).
    { unfold gadget_input. rewrite !bits_of_bytes_app, <- pad_byte_fq, <- u8_bits_all by exact He. f_equal.
      cbn [bits_of_bytes flat_map]. rewrite u8_bits by exact Hc. symmetry. apply app_nil_r. }
    cbv zeta. rewrite I. split.
    - rewrite bits_of_bytes_length, Nat.mul_comm. apply Nat.mod_mul. discriminate.
    - apply bytes_bits. unfold gadget_input. rewrite !is_bytes_app, le_bytes_is_bytes, u8_is_bytes by exact He.
      change [bits_le_val counter] with (map bits_le_val [counter]). rewrite u8_is_bytes by (constructor; [exact Hc|constructor]). reflexivity.
  Qed.
  Definition gadget_xof counter extra x : list bool := bits_of_bytes (xof_bytes SIG_DOMAIN (gadget_input counter extra x)).
  Lemma gadget_xof_len counter extra x : length (gadget_xof counter extra x) = 512%nat.
  Proof. unfold gadget_xof. rewrite bits_of_bytes_length. destruct (xof_bytes_len SIG_DOMAIN (gadget_input counter extra x)) as [-> _]; [rewrite sig_len; lia|reflexivity]. Qed.
  Lemma enforce_hash_holds pin counter message extra h crh xof : u8_var counter -> Forall u8_var extra ->
    holds (ehtg pin counter message extra true) (h, crh, xof) <->
    exists x, ped (map bits_le_val message) = Some x /\ crh = bits_of_bytes (le_bytes 48 (fqv x)) /\
      xof = gadget_xof counter extra x /\ holds (htg pin xof) h.
  Proof.
    intros Hc He. unfold enforce_hash_to_group, pedersen_hash. destruct (ped (map bits_le_val message)) as [x|] eqn:Ex.
    - cbn [cbind]. destruct (input_bytes counter extra x Hc He) as [I1 I2]. rewrite (hash_to_bits_run _ _ sig_len I1), I2. cbn [cbind]. split.
      + intros H. apply holds_bind in H as (h' & Hh & H). cbn [holds] in H. injection H as -> <- <-. exists x. rewrite <- pad_byte_fq. auto.
      + intros (x' & Ex' & -> & -> & H). assert (x' = x) as -> by congruence. apply holds_bind. exists h. split; [exact H|].
        cbn [holds]. rewrite pad_byte_fq. reflexivity.
    - unfold panics. cbn [cbind holds]. split; [contradiction|]. intros (x & H & _). discriminate H.
  Qed.
  Lemma enforce_hash_free pin counter message extra h crh xof :
    holds (ehtg pin counter message extra false) (h, crh, xof) <->
    exists x, ped (map bits_le_val message) = Some x /\ crh = bits_of_bytes (le_bytes 48 (fqv x)) /\
      length xof = 512%nat /\ holds (htg pin xof) h.
  Proof.
    unfold enforce_hash_to_group, pedersen_hash. destruct (ped (map bits_le_val message)) as [x|] eqn:Ex.
    - cbn [cbind]. split.
      + intros H. apply holds_bind in H as (xof' & Hx & H). apply hash_to_bits_free in Hx; [|exact sig_len].
        apply holds_bind in H as (h' & Hh & H). cbn [holds] in H. injection H as -> <- ->. exists x. rewrite <- pad_byte_fq. auto.
      + intros (x' & Ex' & -> & L & H). assert (x' = x) as -> by congruence. apply holds_bind. exists xof. split; [apply hash_to_bits_free; [exact sig_len|exact L]|].
        apply holds_bind. exists h. split; [exact H|]. cbn [holds]. rewrite pad_byte_fq. reflexivity.
    - unfold panics. cbn [cbind holds]. split; [contradiction|]. intros (x & H & _). discriminate H.
  Qed.
  Lemma enforce_hash_prover pin constrain counter message extra x Q : sqrt_spec qmul sqrt -> u8_var counter -> Forall u8_var extra ->
    ped (map bits_le_val message) = Some x ->
    selected (g1_sign_bit compat) (bits_le_val (gadget_xof counter extra x)) Q ->
    prover (ehtg pin counter message extra constrain) =
      Val ((smul G1_COFACTOR (of1 (Some Q)), bits_of_bytes (le_bytes 48 (fqv x)), gadget_xof counter extra x), true).
  Proof.
    intros Hs Hc He Ex H. unfold enforce_hash_to_group, pedersen_hash. rewrite Ex. cbn [cbind].
    destruct (input_bytes counter extra x Hc He) as [I1 I2].
    assert (R : prover (HashGadgetModel.hash_to_bits (counter ++ concat extra ++ pad_byte (to_bits_le x)) 512 SIG_DOMAIN constrain)
                = Val (gadget_xof counter extra x, true)).
    { destruct constrain; [rewrite (hash_to_bits_run _ _ sig_len I1), I2; reflexivity|].
      rewrite hash_to_bits_free_prover by exact sig_len. rewrite <- bytes_of_bits_pack, I2. reflexivity. }
    apply (prover_bind_val _ _ _ _ R).
    apply (prover_bind_val _ _ (smul G1_COFACTOR (of1 (Some Q)))); [apply hash_to_group_prover; [exact Hs|apply gadget_xof_len|exact H]|].
    cbn [prover]. rewrite pad_byte_fq. reflexivity.
  Qed.
End HashToGroup.
