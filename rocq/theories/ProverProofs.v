(** Proofs about the circuit instances built by [prove]. *)
From Coq Require Import Field Permutation.
From Verif Require Import Base Constants Group Field Curve BlsModel BitsModel BitsProofs EncodingModel EncodingSpec EncodingProofs BatchProofs Blake2 HasherModel HasherSpec HasherProofs PointModel
  HashCurveModel HashCurveSpec PointProofs HashCurveProofs CodecSpec Circuit CircuitFacts GadgetModel GadgetSpec CubeFacts GadgetProofs
  HashGadgetModel HashGadgetSpec HashGadgetProofs HashGadgetNative EpochCircuitModel EpochSpec EpochCircuitSpec EpochProofs EpochCircuitProofs EpochChainProofs ProverModel ProverSpec.
Local Open Scope circ_scope.
Local Opaque p half.
Add Field Fqf : fq_field.

Lemma p_large : 2 ^ 376 <= p. Proof. vm_compute. discriminate. Qed.
Lemma fqv_small v : 0 <= v < 2 ^ 376 -> fqv (fq_of v) = v.
Proof. intros H. rewrite fqv_of. apply Z.mod_small. pose proof p_large. lia. Qed.

Lemma val_inj {A B} (a a' : A) (b b' : B) : Val (a, b) = Val (a', b') -> a = a'.
Proof. intros H. injection H. auto. Qed.

Section Prover.
  Context {E1 E2 GT : grp} (e : E1 -> E2 -> GT) (gen1 : E1) (gen2 : E2).
  Context (of1 : apoint fq -> E1) (of2 : apoint fq2 -> E2) (to1 : E1 -> apoint fq) (to2 : E2 -> apoint fq2).
  Context (sqrt : fq -> option fq) (ped : bytes -> option fq) (compat pin debug : bool).
  Context {HP : Type} (helper_verify : HP -> list (list bool) -> bool).
  Notation header_of := (header_of to2).
  Notation coords_of := (coords_of to2).
  Notation good_block := (good_block of2 to2).
  Notation block_hash := (block_hash gen2 of1 to2 sqrt ped compat).
  Implicit Types (b : epoch_block E2) (t : transition E1 E2).

  Lemma good_wf o : good_entropy o -> wf_entropy o.
  Proof. destruct o as [l|]; [|trivial]. cbn. intros [A B]. split; [exact A|lia]. Qed.
  Lemma entropy_bytes o : good_entropy o -> is_bytes (entropy_value o) = true /\ length (entropy_value o) = 16%nat.
  Proof. intros H. destruct (entropy_value_wf _ (good_wf _ H)). auto. Qed.
  Lemma entropy_range o : good_entropy o -> 0 <= bytes_number (entropy_value o) < 2 ^ 128.
  Proof.
    intros H. destruct (entropy_bytes o H) as [A B]. rewrite bytes_number_eq. pose proof (le_val_bound _ A) as R. rewrite B in R. exact R.
  Qed.
  Lemma entropy_bits o : good_entropy o -> low 128 (entropy_number o) = encode_entropy o.
  Proof.
    intros H. destruct (entropy_bytes o H) as [A B]. rewrite encode_entropy_value. apply bits_le_val_inj.
    - rewrite low_length, flat_bits_length. unfold bytes, byte in *. rewrite B. reflexivity.
    - rewrite low_val, flat_bits_val by exact A. unfold entropy_number. pose proof (entropy_range o H) as R.
      rewrite fqv_small by (assert (2 ^ 128 < 2 ^ 376) by reflexivity; lia). change le_val with bytes_number. apply Z.mod_small, R.
  Qed.
  Lemma u16_bits v : 0 <= v < 2 ^ 16 -> low 16 (fq_of v) = encode_u16 v.
  Proof.
    intros H. apply bits_le_val_inj; [rewrite low_length, encode_u16_length; reflexivity|]. rewrite low_val, encode_u16_val. rewrite fqv_small by (assert (2 ^ 16 < 2 ^ 376) by reflexivity; lia). reflexivity.
  Qed.
  Lemma u8_bits8 v : 0 <= v < 2 ^ 8 -> low 8 (fq_of v) = encode_u8 v.
  Proof.
    intros H. apply bits_le_val_inj; [rewrite low_length, encode_u8_length; reflexivity|]. rewrite low_val, encode_u8_val by exact H. rewrite fqv_small by (assert (2 ^ 8 < 2 ^ 376) by reflexivity; lia). apply Z.mod_small, H.
  Qed.
  Lemma u32_bits v : 0 <= v < 2 ^ 32 -> low 32 (fq_of v) = encode_u32 v.
  Proof.
    intros H. apply bits_le_val_inj; [rewrite low_length, encode_u32_length; reflexivity|]. rewrite low_val, encode_u32_val. rewrite fqv_small by (assert (2 ^ 32 < 2 ^ 376) by reflexivity; lia). reflexivity.
  Qed.
  Lemma header_keys n b : good_block n b -> key_bits (header_of b) = encode_keys_padded coords_of gen2 b.
  Proof.
    intros (_ & _ & _ & L & M & _). unfold key_bits, encode_keys_padded. cbn [ProverSpec.header_of h_keys].
    rewrite L. assert (Z.of_nat n <? eb_max_validators b = false) as -> by (apply Z.ltb_ge; exact M). rewrite app_nil_r, map_map, flat_map_concat_map. reflexivity.
  Qed.
  Lemma header_signed n b : good_block n b ->
    (signed_bits (header_of b), extra_bits (header_of b)) = encode_inner_to_bits_cip22 coords_of gen2 b.
  Proof.
    intros G. pose proof (header_keys n b G) as K. destruct G as ((I & R & M) & A & B & _). unfold signed_bits, extra_bits, encode_inner_to_bits_cip22. rewrite K.
    cbn [ProverSpec.header_of h_index h_round h_max h_entropy h_parent]. rewrite !entropy_bits, u16_bits, u8_bits8, u32_bits by assumption. reflexivity.
  Qed.
  Lemma header_first n b : good_block n b -> first_bits (header_of b) = encode_to_bits_cip22 coords_of gen2 b First.
  Proof.
    intros G. pose proof (header_keys n b G) as K. destruct G as ((I & R & M) & A & B & _). unfold first_bits, encode_to_bits_cip22. rewrite K.
    cbn [ProverSpec.header_of h_index h_round h_max h_entropy h_parent]. rewrite !entropy_bits, u16_bits, u32_bits by assumption. reflexivity.
  Qed.
  Lemma header_closing n b : good_block n b -> closing_bits (header_of b) = encode_to_bits_cip22 coords_of gen2 b Last.
  Proof.
    intros G. pose proof (header_keys n b G) as K. destruct G as ((I & R & M) & A & B & _). unfold closing_bits, encode_to_bits_cip22. rewrite K.
    cbn [ProverSpec.header_of h_index h_round h_max h_entropy h_parent]. rewrite !entropy_bits, u16_bits, u32_bits by assumption. reflexivity.
  Qed.

  (** ** The honest prover, part by part *)
  Lemma key_prover P : good_key of2 to2 P -> prover (key_var of2 to2 pin (Some P)) = Val ((P, encode_coords (coords_of P)), true).
  Proof.
    intros [A B]. unfold key_var. cbn [get smap]. apply (prover_bind_val _ _ (tri2 (to2 P))).
    - etransitivity; [exact (alloc_prover q2_0 q2_1 q2mul q2sub q2eqb TWIST_B pin (to2 P))|]. f_equal. f_equal. change (g2_valid pin (tri2 (to2 P)) = true). rewrite g2_valid_tri. exact A.
    - unfold ProverSpec.coords_of. rewrite g2_coords_tri. apply (prover_bind_val _ _ (encode_coords (g2_coords (to2 P)))).
      + rewrite g2_bits_prover. destruct (g2_coords (to2 P)). reflexivity.
      + rewrite <- g2_coords_tri, affine2_tri, B. reflexivity.
  Qed.
  Lemma entropy_prover o : good_entropy o ->
    prover (bytes_to_fr (match o with Some v => v | None => ENTROPY_ZERO end)) = Val (entropy_number o, true).
  Proof.
    intros H. pose proof (entropy_range o H) as R. destruct (entropy_bytes o H) as [A B]. unfold bytes_to_fr.
    assert (E : match o with Some v => v | None => ENTROPY_ZERO end = entropy_value o).
    { destruct o as [l|]; [|reflexivity]. cbn in H. cbn [entropy_value]. symmetry. apply firstn_all2. lia. }
    rewrite E. assert (V : from_bits_be (bytes_le_to_bits_be (entropy_value o) 384) = bytes_number (entropy_value o)).
    { unfold from_bits_be. unfold bytes_le_to_bits_be. rewrite rev_involutive, bits_le_val_firstn, flat_bits_val by exact A.
      change le_val with bytes_number. apply Z.mod_small. assert (2 ^ 128 < 2 ^ Z.of_nat 384) by reflexivity. lia. }
    rewrite V. unfold from_repr. pose proof p_large. assert (bytes_number (entropy_value o) <? p = true) as ->.
    { apply Z.ltb_lt. assert (2 ^ 128 < 2 ^ 376) by reflexivity. lia. }
    apply prover_witness.
  Qed.
  Lemma to_bits_prover n b : good_block n b -> prover (to_bits of2 to2 pin (to_epoch_data b)) = Val (vars_of (header_of b), true).
  Proof.
    intros (_ & A & B & _ & _ & K). unfold EpochCircuitModel.to_bits. cbn [to_epoch_data ed_index ed_round ed_max_non_signers ed_epoch_entropy ed_parent_entropy ed_keys get smap].
    do 3 (eapply prover_bind_val; [apply prover_witness|]). do 2 (eapply prover_bind_val; [apply entropy_prover; assumption|]).
    apply (prover_bind_val _ _ (map (fun P => (P, encode_coords (coords_of P))) (eb_keys b))).
    - clear A B. induction K as [|P l HPk _ IH]; [reflexivity|]. cbn [map cmap]. eapply prover_bind_val; [apply key_prover, HPk|]. eapply prover_bind_val; [exact IH|reflexivity].
    - cbn [prover]. rewrite !fr_to_bits_low by (unfold ENTROPY_BYTES; lia). reflexivity.
  Qed.
  Lemma next_prover (prev i : fq) : (i <> q0 -> i = qadd prev q1) -> prover (enforce_next_epoch prev i) = Val (tt, true).
  Proof.
    intros H. unfold enforce_next_epoch. eapply prover_bind_val; [apply is_eq_zero_prover|]. apply cond_equal_prover. cbn [value]. intros N. apply H, nz_bit, N.
  Qed.
  Lemma hash_prover n b H constrain : sqrt_spec qmul sqrt -> of1 None = gz -> negation_law of1 -> good_block n b -> block_hash b H ->
    exists crh xof, prover (hash_bits_to_g1 of1 sqrt ped compat pin (signed_bits (header_of b)) (extra_bits (header_of b)) constrain) = Val ((H, crh, xof), true).
  Proof.
    intros Hs Z N G (m & x & c & He & Ha). pose proof (header_signed n b G) as HB.
    unfold encode_inner_to_bytes_cip22 in He. rewrite <- HB in He. rewrite !pack_u8_native in He. cbn [rbind] in He.
    assert (Em : m = map bits_le_val (pack_u8 (signed_bits (header_of b))) /\ x = map bits_le_val (pack_u8 (extra_bits (header_of b)))).
    { apply ok_inj in He. apply pair_equal_spec in He. destruct He. split; symmetry; assumption. }
    destruct Em as [-> ->]. destruct (native_attempt of1 sqrt ped compat _ _ _ _ Hs Ha) as (v & _ & Rc & _).
    destruct (native_in_gadget of1 sqrt ped compat pin constrain (byte_bits 8 (c mod 256)) (pack_u8 (signed_bits (header_of b))) (pack_u8 (extra_bits (header_of b))) H Hs Z N) as (crh & xof & R).
    - apply byte_bits_length.
    - apply pack_u8_var.
    - rewrite byte_bits_val. change (2 ^ Z.of_nat 8) with 256. rewrite Z.mod_mod by lia. rewrite (Z.mod_small c) by lia. exact Ha.
    - exists crh, xof. unfold hash_bits_to_g1. apply (prover_bind_val _ _ (byte_bits 8 (c mod 256))); [|exact R].
      unfold find_counter. rewrite Ha. apply new_u8_prover.
  Qed.

  (** ** Steps *)
  Definition carried_of b : carried := mk_carried (eb_keys b) (fq_of (eb_index b)) (entropy_number (eb_epoch_entropy b)) (fq_of (eb_max_non_signers b)).
  Definition step (l : Prop) (n : nat) b nb (bitmap : list bool) (signing : list E2) (H : E1) (s : E1) : Prop :=
    good_block n nb /\ eb_index nb = eb_index b + 1 /\ (l -> entropy_value (eb_parent_entropy nb) = entropy_value (eb_epoch_entropy b)) /\
    signers (eb_keys b) bitmap signing /\ ~ In gen2 signing /\ sum signing <> gz /\
    positions false bitmap <= eb_max_non_signers b /\ positions false bitmap < 256 /\ block_hash nb H /\ e s gen2 = e H (sum signing).
  Definition item nb (bitmap : list bool) : single_update E2 := mk_update (to_epoch_data nb) (map Some bitmap).
  Definition dummy_item (n : nat) : single_update E2 := item (dummy_block gen2 n) (repeat true n).
  Inductive run (l : Prop) (n : nat) : epoch_block E2 -> list (single_update E2) -> list (E1 * E2) -> list E1 -> epoch_block E2 -> Prop :=
  | run_last b nb bitmap signing H s : step l n b nb bitmap signing H s -> (exists c, to2 (sum (eb_keys nb)) = Some c) ->
      run l n b [item nb bitmap] [(H, sum signing)] [s] nb
  | run_real b nb bitmap signing H s us pairs ss b' : step l n b nb bitmap signing H s -> run l n nb us pairs ss b' ->
      run l n b (item nb bitmap :: us) ((H, sum signing) :: pairs) (s :: ss) b'
  | run_dummy b H us pairs ss b' : ~ In gen2 (eb_keys b) -> good_key of2 to2 gen2 -> block_hash (dummy_block gen2 n) H -> run l n b us pairs ss b' ->
      run l n b (dummy_item n :: us) ((gen1, gen2) :: pairs) (gen1 :: ss) b'.
  Lemma dummy_item_eq n : to_dummy_update gen2 (Z.of_nat n) = dummy_item n.
  Proof.
    unfold to_dummy_update, dummy_item, item, to_epoch_data, dummy_block. cbn [eb_max_non_signers eb_index eb_round eb_epoch_entropy eb_parent_entropy eb_keys].
    rewrite Nat2Z.id. assert (R : forall (A : Type) (x : A) m i, map (fun _ => x) (seq i m) = repeat x m).
    { intros A x m. induction m as [|m IH]; intros i; [reflexivity|]. cbn [seq map repeat]. f_equal. apply IH. }
    assert (M : forall (A : Type) (x : A) m, map Some (repeat x m) = repeat (Some x) m).
    { intros A x m. induction m as [|m IH]; [reflexivity|]. cbn [repeat map]. f_equal. exact IH. }
    rewrite !R, !M. reflexivity.
  Qed.
  Lemma good_dummy n : good_key of2 to2 gen2 -> good_block n (dummy_block gen2 n).
  Proof.
    intros K. unfold ProverSpec.good_block, dummy_block, wf_numbers. cbn [eb_max_non_signers eb_index eb_round eb_epoch_entropy eb_parent_entropy eb_keys eb_max_validators].
    split; [lia|]. split; [split; reflexivity|]. split; [split; reflexivity|]. split; [apply repeat_length|]. split; [lia|].
    apply Forall_forall. intros x Hx. apply repeat_spec in Hx. subst x. exact K.
  Qed.
  Lemma index_nz n nb b : good_block n nb -> 0 <= eb_index b -> eb_index nb = eb_index b + 1 -> fq_of (eb_index nb) <> q0.
  Proof.
    intros ((I & _) & _) B E X. apply (f_equal fqv) in X. rewrite fqv_small in X by (assert (2 ^ 16 < 2 ^ 376) by reflexivity; lia).
    change (fqv q0) with 0 in X. lia.
  Qed.
  Lemma all_signers (ks : list E2) : signers ks (repeat true (length ks)) ks.
  Proof. induction ks; cbn [length repeat]; constructor; assumption. Qed.
  Lemma all_positions m : positions false (repeat true m) = 0.
  Proof. unfold positions. induction m as [|m IH]; [reflexivity|]. cbn [repeat count_occ]. exact IH. Qed.
  Lemma max_range b n : good_block n b -> fqv (fq_of (eb_max_non_signers b)) = eb_max_non_signers b /\ eb_max_non_signers b < half.
  Proof.
    intros ((_ & _ & M) & _). rewrite fqv_small by (assert (2 ^ 32 < 2 ^ 376) by reflexivity; lia). split; [reflexivity|].
    assert (2 ^ 32 < half) by (vm_compute; reflexivity). lia.
  Qed.
  Notation constrain_update := (constrain_update gen2 of1 of2 to2 sqrt ped compat pin debug).
  Notation epochs_loop := (epochs_loop gen1 gen2 of1 of2 to2 sqrt ped compat pin debug).
  Notation generate_constraints := (generate_constraints e gen1 gen2 of1 of2 to1 to2 sqrt ped compat pin debug helper_verify).

  Hypothesis (Hsqrt : sqrt_spec qmul sqrt) (Hzero : of1 None = gz) (Hneg : negation_law of1) (Hg : gen2 <> gz).

  (** one update: [h] the header, [signing] the signers *)
  Lemma update_prover (n : nat) b nb bitmap signing H ebit constrain : Z.of_nat n < p -> good_block n b -> good_block n nb -> block_hash nb H ->
    (fq_of (eb_index nb) <> q0 -> fq_of (eb_index nb) = qadd (fq_of (eb_index b)) q1) ->
    (fq_of (eb_index nb) <> q0 -> ebit = true -> entropy_number (eb_epoch_entropy b) = entropy_number (eb_parent_entropy nb)) ->
    bitmap <> [] -> signers (eb_keys b) bitmap signing -> ~ In gen2 signing -> positions false bitmap <= eb_max_non_signers b -> positions false bitmap < 256 ->
    exists crh xof, prover (constrain_update (item nb bitmap) (carried_of b) ebit (Z.of_nat n) constrain) =
      Val ((vars_of (header_of nb), (H, crh, xof), sum signing), true).
  Proof.
    intros Hn Gb Gnb HH HI HE NE HS HP' HM H256. destruct (hash_prover n nb H constrain Hsqrt Hzero Hneg Gnb HH) as (crh & xof & R). exists crh, xof.
    unfold EpochCircuitModel.constrain_update, item. cbn [su_data su_bitmap].
    assert (L : length (ed_keys (to_epoch_data nb)) = n) by (cbn [to_epoch_data ed_keys]; rewrite map_length; apply Gnb). rewrite L, Z.eqb_refl. cbn [negb].
    apply (prover_bind_val _ _ (vars_of (header_of nb), (H, crh, xof))).
    - unfold constrain_data. eapply prover_bind_val; [eapply to_bits_prover; exact Gnb|]. eapply prover_bind_val; [apply next_prover; exact HI|].
      eapply prover_bind_val; [exact R|]. reflexivity.
    - eapply prover_bind_val; [apply is_eq_zero_prover|]. eapply prover_bind_val.
      { apply cond_equal_prover. cbn [value]. intros X. apply andb_true_iff in X as [X1 X2]. apply nz_bit in X1. exact (HE X1 X2). }
      eapply prover_bind_val; [apply constrain_bool_prover|]. apply (prover_bind_val _ _ (H, sum signing)); [|reflexivity]. unfold enforce_bitmap.
      assert (LB : length bitmap = n). { rewrite (signers_length _ _ _ HS). apply Gb. }
      eapply prover_bind_val; [|eapply prover_bind_val; [apply aggregated_prover; [exact HS|exact HP']|reflexivity]].
      rewrite bitmap_prover; [|exact NE|rewrite LB; exact Hn|exact H256]. f_equal. f_equal. cbn [carried_of c_max].
      destruct (max_range b n Gb) as [-> M]. apply andb_true_iff. rewrite Z.leb_le, Z.ltb_lt. auto.
  Qed.
  Lemma next_real n nb b : good_block n nb -> fq_of (eb_index nb) <> q0 -> next (header_of nb) (carried_of b) = carried_of nb.
  Proof.
    intros G N. unfold next. apply nz_bit in N as N'. cbn [ProverSpec.header_of h_index]. rewrite N'. unfold carried_of. cbn [ProverSpec.header_of h_keys h_entropy h_max].
    rewrite map_map, map_id. reflexivity.
  Qed.
  Lemma last_prover nb x y : fq_of (eb_index nb) <> q0 -> to2 (sum (eb_keys nb)) = Some (x, y) ->
    prover (last_bits to2 (vars_of (header_of nb)) (eb_keys nb) true) = Val (closing_bits (header_of nb) ++ encode_coords (x, y), true).
  Proof.
    intros N E. unfold last_bits. apply (prover_bind_val _ _ (sum (eb_keys nb))).
    { cbn [enforce_aggregated_all_pubkeys prover]. rewrite <- sum_gsum. reflexivity. }
    rewrite E. eapply prover_bind_val; [apply prover_enforce|]. eapply prover_bind_val; [apply g2_bits_prover|]. eapply prover_bind_val; [unfold enforce_equal; apply prover_enforce|]. reflexivity.
  Qed.
  Lemma prepare_prover (Q : E2) : Q <> gz -> prover (prepare_g2 Q) = Val (Q, true).
  Proof.
    intros N. unfold prepare_g2. apply (prover_bind_val _ _ tt); [|reflexivity]. rewrite prover_enforce. f_equal. f_equal. apply negb_true_iff. destruct (geqb Q gz) eqn:X; [|reflexivity].
    apply geqb_spec in X. contradiction.
  Qed.
  Lemma step_update (l : Prop) n b nb bitmap signing H s ebit constrain : Z.of_nat n < p -> (ebit = true -> l) -> good_block n b -> step l n b nb bitmap signing H s ->
    fq_of (eb_index nb) <> q0 /\ exists crh xof, prover (constrain_update (item nb bitmap) (carried_of b) ebit (Z.of_nat n) constrain) =
      Val ((vars_of (header_of nb), (H, crh, xof), sum signing), true).
  Proof.
    intros Hn Hl Gb (G & I & L & S' & NI & NZ & M & M' & HH & _). assert (N : fq_of (eb_index nb) <> q0).
    { eapply index_nz; [exact G| |exact I]. destruct Gb as ((X & _) & _). lia. }
    split; [exact N|]. apply update_prover; try assumption.
    - intros _. rewrite I. apply fq_ext. unfold qadd. rewrite !fqv_of. change (fqv q1) with 1. modring. reflexivity.
    - intros _ E. unfold entropy_number. rewrite (L (Hl E)). reflexivity.
    - intros ->. inversion S'; subst. apply NZ. reflexivity.
  Qed.
  Lemma run_size l n b us pairs ss b' : run l n b us pairs ss b' -> eb_keys b <> [].
  Proof.
    assert (A : forall b nb bitmap signing H s, step l n b nb bitmap signing H s -> eb_keys b <> []).
    { intros b0 nb bm sg H s (_ & _ & _ & S' & _ & NZ & _) K. rewrite K in S'. inversion S'; subst. apply NZ. reflexivity. }
    intros HR. induction HR; eauto.
  Qed.
  Lemma loop_prover (l : Prop) n us : Z.of_nat n < p -> forall b pairs ss b' constrain ebit, (ebit = true -> l) -> good_block n b -> run l n b us pairs ss b' ->
    exists crh xof x y, to2 (sum (eb_keys b')) = Some (x, y) /\ good_block n b' /\ prover (epochs_loop us (carried_of b) ebit (Z.of_nat n) constrain) =
      Val ((closing_bits (header_of b') ++ encode_coords (x, y), crh, xof, map snd pairs, map fst pairs), true).
  Proof.
    intros Hn b pairs ss b' constrain ebit Hl Gb HR.
    induction HR as [b nb bitmap signing H s ST [[x y] Et]|b nb bitmap signing H s us pairs ss b' ST HR IH|b H us pairs ss b' NI GK HH HR IH].
    - destruct (step_update _ _ _ _ _ _ _ _ _ constrain Hn Hl Gb ST) as (N & crh & xof & R). apply nz_bit in N as N'.
      assert (Gnb : good_block n nb) by apply ST. assert (NZ : sum signing <> gz) by apply ST.
      exists (crh ++ []), (xof ++ []), x, y. split; [exact Et|]. split; [exact Gnb|]. cbn [EpochCircuitModel.epochs_loop]. eapply prover_bind_val; [exact R|].
      eapply prover_bind_val; [apply is_eq_zero_prover|]. cbn [value v_index v_entropy v_max v_keys vars_of].
      rewrite next_eq by (cbn [ProverSpec.header_of h_keys carried_of c_keys]; rewrite map_length; destruct Gnb as (_ & _ & _ & -> & _); symmetry; apply Gb).
      rewrite (next_real n) by assumption. cbn [ProverSpec.header_of h_index]. rewrite N'.
      eapply prover_bind_val; [apply prepare_prover, NZ|]. eapply prover_bind_val; [reflexivity|]. eapply prover_bind_val; [apply last_prover; [exact N|exact Et]|].
      eapply prover_bind_val; [reflexivity|]. reflexivity.
    - destruct (step_update _ _ _ _ _ _ _ _ _ constrain Hn Hl Gb ST) as (N & crh & xof & R). apply nz_bit in N as N'.
      assert (Gnb : good_block n nb) by apply ST. assert (NZ : sum signing <> gz) by apply ST.
      destruct (IH Gnb) as (crhs & xofs & x & y & Et & Gb' & R').
      exists (crh ++ crhs), (xof ++ xofs), x, y. split; [exact Et|]. split; [exact Gb'|]. cbn [EpochCircuitModel.epochs_loop]. eapply prover_bind_val; [exact R|].
      eapply prover_bind_val; [apply is_eq_zero_prover|]. cbn [value v_index v_entropy v_max v_keys vars_of].
      rewrite next_eq by (cbn [ProverSpec.header_of h_keys carried_of c_keys]; rewrite map_length; destruct Gnb as (_ & _ & _ & -> & _); symmetry; apply Gb).
      rewrite (next_real n) by assumption. cbn [ProverSpec.header_of h_index]. rewrite N'.
      eapply prover_bind_val; [apply prepare_prover, NZ|]. eapply prover_bind_val; [reflexivity|].
      assert (us <> []) as NE by (inversion HR; discriminate). destruct us as [|u0 us]; [congruence|].
      eapply prover_bind_val; [reflexivity|]. eapply prover_bind_val; [exact R'|]. reflexivity.
    - pose proof (good_dummy n GK) as Gd. destruct (IH Gb) as (crhs & xofs & x & y & Et & Gb' & R').
      assert (NE : us <> []) by (inversion HR; discriminate).
      assert (LN : n <> 0%nat).
      { intros ->. apply (run_size _ _ _ _ _ _ _ HR). apply length_zero_iff_nil, Gb. }
      destruct (update_prover n b (dummy_block gen2 n) (repeat true n) (eb_keys b) H ebit constrain) as (crh & xof & R); try assumption.
      + intros X. exfalso. apply X. reflexivity.
      + intros X. exfalso. apply X. reflexivity.
      + destruct n; [congruence|discriminate].
      + destruct Gb as (_ & _ & _ & <- & _). apply all_signers.
      + rewrite all_positions. apply Gb.
      + rewrite all_positions. lia.
      + exists (crh ++ crhs), (xof ++ xofs), x, y. split; [exact Et|]. split; [exact Gb'|]. cbn [EpochCircuitModel.epochs_loop]. unfold dummy_item. eapply prover_bind_val; [exact R|].
        eapply prover_bind_val; [apply is_eq_zero_prover|]. cbn [value v_index v_entropy v_max v_keys vars_of].
        rewrite next_eq by (cbn [ProverSpec.header_of h_keys carried_of c_keys]; rewrite map_length; destruct Gd as (_ & _ & _ & -> & _); symmetry; apply Gb).
        assert (NX : next (header_of (dummy_block gen2 n)) (carried_of b) = carried_of b) by reflexivity. rewrite NX.
        assert (Z0 : negb (qeqb (h_index (header_of (dummy_block gen2 n))) q0) = false) by reflexivity. rewrite Z0.
        eapply prover_bind_val; [apply prepare_prover, Hg|]. eapply prover_bind_val; [reflexivity|]. destruct us as [|u0 us]; [congruence|].
        eapply prover_bind_val; [reflexivity|]. eapply prover_bind_val; [exact R'|]. reflexivity.
  Qed.

  (** ** Signatures *)
  Lemma e_zero_l (Q : E2) : linear_at e Q -> e gz Q = gz.
  Proof.
    intros [R _]. pose proof (R gz gz) as X. rewrite ga_0_l in X. apply (f_equal (ga (gn (e gz Q)))) in X.
    rewrite gn_l, ga_assoc, gn_l, ga_0_l in X. symmetry. exact X.
  Qed.
  Lemma run_signed l n b us pairs ss b' : linear_at e gen2 -> run l n b us pairs ss b' -> sum (map (fun '(H, K) => e H K) pairs) = e (sum ss) gen2.
  Proof.
    intros B HR. assert (C : forall (s : E1) ss, e (sum (s :: ss)) gen2 = ga (e s gen2) (e (sum ss) gen2)) by (intros; apply B).
    induction HR as [b nb bitmap signing H s ST _|b nb bitmap signing H s us pairs ss b' ST HR IH|b H us pairs ss b' NI GK HH HR IH]; rewrite C; cbn [map sum fold_right].
    - rewrite e_zero_l by exact B. f_equal. symmetry. apply ST.
    - change (fold_right ga gz (map (fun '(H0, K) => e H0 K) pairs)) with (sum (map (fun '(H0, K) => e H0 K) pairs)). rewrite IH. f_equal. symmetry. apply ST.
    - change (fold_right ga gz (map (fun '(H0, K) => e H0 K) pairs)) with (sum (map (fun '(H0, K) => e H0 K) pairs)). rewrite IH. reflexivity.
  Qed.
  Lemma signed_intro (s : E1) pairs : linear_at e gen2 -> sum (map (fun '(H, K) => e H K) pairs) = e s gen2 -> signed e gen2 s pairs.
  Proof. intros B E. unfold signed. rewrite E. rewrite (proj2 B). apply gn_l. Qed.

  (** ** The circuit *)
  Lemma edges_prover (b : epoch_bits) helper : prover (verify_bits helper_verify b helper) =
    Val (map (fun c => fq_of (from_bits_be c)) (chunks CAPACITY (digest_bits (map bits_le_val (pack_u8 (b_first b))) (map bits_le_val (pack_u8 (b_last b))))), true).
  Proof.
    unfold verify_bits. eapply prover_bind_val.
    - instantiate (1 := tt). destruct helper as [h|]; [|reflexivity]. unfold verify_proof. eapply prover_bind_val; [apply prover_witness|reflexivity].
    - unfold verify_edges. rewrite !edge_is. cbn [cbind]. rewrite digest_bits_eq. apply multipack_prover. unfold CAPACITY. lia.
  Qed.
  Lemma circuit_prover (l : Prop) (n : nat) b us pairs ss b' s helper : Z.of_nat n < p -> linear_at e gen2 -> good_signature of1 to1 s -> s = sum ss ->
    (bytes_number (entropy_value (eb_epoch_entropy b)) <> 0 -> l) -> good_block n b -> run l n b us pairs ss b' ->
    exists inputs x y, to2 (sum (eb_keys b')) = Some (x, y) /\
      prover (generate_constraints (mk_vsu (to_epoch_data b) (Z.of_nat n) us (Some s) helper)) = Val (inputs, true) /\
      inputs = map (fun c => fq_of (from_bits_be c)) (chunks CAPACITY (digest_bits (map bits_le_val (pack_u8 (encode_to_bits_cip22 coords_of gen2 b First)))
         (map bits_le_val (pack_u8 (encode_to_bits_cip22 coords_of gen2 b' Last ++ encode_coords (x, y)))))).
  Proof.
    intros Hn B GS Es Hl Gb HR. destruct (loop_prover l n us Hn b pairs ss b' (match helper with None => true | Some _ => false end) (negb (qeqb (entropy_number (eb_epoch_entropy b)) q0))) as (crh & xof & x & y & Et & Gb' & R); try assumption.
    { intros X. apply Hl. apply nz_bit in X. intros Z. apply X. unfold entropy_number. rewrite Z. reflexivity. }
    eexists _, x, y. split; [exact Et|]. split; [|reflexivity]. unfold EpochCircuitModel.generate_constraints.
    rewrite <- (header_first n b Gb), <- (header_closing n b' Gb').
    apply (prover_bind_val _ _ (mk_bits (first_bits (header_of b)) (closing_bits (header_of b') ++ encode_coords (x, y)) crh xof)); [|apply edges_prover].
    unfold enforce_epochs. cbn [vsu_initial vsu_helper vsu_epochs vsu_num_validators vsu_signature]. eapply prover_bind_val; [eapply to_bits_prover; exact Gb|].
    eapply prover_bind_val.
    - unfold verify_intermediate_epochs. eapply prover_bind_val; [apply is_eq_zero_prover|]. cbn [vsu_initial vsu_helper vsu_epochs vsu_num_validators vars_of v_keys v_index v_entropy v_max value].
      cbn [ProverSpec.header_of h_keys h_index h_entropy h_max]. rewrite map_map, map_id. exact R.
    - eapply prover_bind_val; [|reflexivity]. unfold verify_signature. cbn [vsu_signature get smap]. eapply prover_bind_val.
      + etransitivity; [exact (alloc_prover q0 q1 qmul qsub qeqb G1_B pin (to1 s))|]. f_equal. f_equal. change (g1_valid pin (tri1 (to1 s)) = true). rewrite g1_valid_tri. apply GS.
      + change (triple_of q0 q1 (to1 s)) with (tri1 (to1 s)). rewrite affine1_tri. destruct GS as [_ ->]. rewrite prepared_prover by exact Hg. f_equal. f_equal.
        apply geqb_spec. rewrite combine_pairs. apply (signed_intro s pairs B). rewrite Es. eapply run_signed; eauto.
  Qed.

  (** ** prove *)
  Lemma last_cons {A} (x : A) l d d' : last (x :: l) d = last (x :: l) d'.
  Proof. revert x. induction l as [|y l IH]; intros x; [reflexivity|]. exact (IH y). Qed.
  Lemma honest_step_inv l n b t ts : honest e gen2 of2 to2 block_hash l n b (t :: ts) ->
    exists signing H, step l n b (t_block t) (t_bitmap t) signing H (t_signature t) /\ honest e gen2 of2 to2 block_hash l n (t_block t) ts.
  Proof. intros X. inversion X; subst. exists signing, H. split; [|assumption]. unfold step. auto 12. Qed.
  Lemma run_of_honest (l : Prop) n d t : forall ts b, honest e gen2 of2 to2 block_hash l n b (ts ++ [t]) ->
    (d <> 0%nat -> ~ In gen2 (eb_keys (last_block b ts)) /\ good_key of2 to2 gen2 /\ exists H, block_hash (dummy_block gen2 n) H) ->
    (exists c, to2 (sum (eb_keys (t_block t))) = Some c) ->
    exists pairs, run l n b (map to_update ts ++ repeat (dummy_item n) d ++ [to_update t]) pairs (map t_signature ts ++ repeat gen1 d ++ [t_signature t]) (t_block t).
  Proof.
    intros ts. induction ts as [|t0 ts IH]; intros b HO HD HC; cbn [app map].
    - apply honest_step_inv in HO as (signing & H & ST & _). cbn [last_block map last] in HD. induction d as [|d IH]; cbn [repeat app].
      + exists [(H, sum signing)]. apply run_last; assumption.
      + destruct HD as (NI & GK & H' & HH); [discriminate|]. destruct IH as (pairs & HR); [intros _; eauto|]. eexists. eapply run_dummy; eauto.
    - cbn [app] in HO. apply honest_step_inv in HO as (signing & H & ST & HO). destruct (IH _ HO) as (pairs & HR); [|exact HC|].
      + intros Nd. specialize (HD Nd). unfold last_block in *. cbn [map] in HD. destruct (map t_block ts) as [|b0 bs]; [exact HD|]. change (last (t_block t0 :: b0 :: bs) b) with (last (b0 :: bs) b) in HD.
        rewrite (last_cons _ _ b (t_block t0)) in HD. exact HD.
      + eexists. eapply run_real; [exact ST|exact HR].
  Qed.

  Lemma map_const_repeat {A B} (x : B) (l : list A) : map (fun _ => x) l = repeat x (length l).
  Proof. induction l; cbn; [reflexivity|]. f_equal. assumption. Qed.
  Lemma updates_ok n ts t max : (length (ts ++ [t]) <= max)%nat ->
    prove_updates (E1 := E1) gen2 (Z.of_nat n) (ts ++ [t]) max = Ok (map to_update ts ++ repeat (dummy_item n) (max - length (ts ++ [t])) ++ [to_update t]).
  Proof.
    intros L. unfold prove_updates. rewrite map_length. destruct (Nat.ltb_spec (length (ts ++ [t])) max) as [X|X].
    - rewrite app_length in *. cbn [length] in *. replace (length ts + 1)%nat with (S (length ts)) in * by lia.
      assert (nth_error (map to_update (ts ++ [t])) (length ts) = Some (to_update t)) as ->.
      { rewrite map_app, nth_error_app2; rewrite map_length; [|lia]. rewrite Nat.sub_diag. reflexivity. }
      rewrite map_const_repeat, seq_length, dummy_item_eq. f_equal. f_equal. rewrite map_app, firstn_app, map_length, Nat.sub_diag.
      cbn [firstn]. rewrite app_nil_r. apply firstn_all2. rewrite map_length. lia.
    - replace (max - length (ts ++ [t]))%nat with 0%nat by lia. cbn [repeat app]. rewrite map_app. reflexivity.
  Qed.
  Lemma signature_ok ts t max : (length (ts ++ [t]) <= max)%nat ->
    prove_signature gen1 (ts ++ [t]) max = Ok (sum (map t_signature ts ++ repeat gen1 (max - length (ts ++ [t])) ++ [t_signature t])).
  Proof.
    intros L. unfold prove_signature. apply Nat.ltb_ge in L. rewrite L. f_equal. rewrite map_const_repeat, seq_length, <- !sum_gsum, gsum_app.
    rewrite map_app. cbn [map]. set (d := repeat gen1 _). transitivity (ga (gsum d) (gsum (map t_signature ts ++ [t_signature t]))).
    - f_equal. apply ga_0_l.
    - rewrite <- gsum_app. apply gsum_perm. rewrite !app_assoc. apply Permutation_app_tail, Permutation_app_comm.
  Qed.
  Lemma digest_native (a b : bytes) : digest_bits a b = bytes_le_to_bits_le (blake2_out a) 256 ++ bytes_le_to_bits_le (blake2_out b) 256.
  Proof. rewrite digest_bits_eq, !bits_of_bytes_le, !(proj1 (blake2_out_length _)). reflexivity. Qed.
  Lemma native_inputs (b b' : epoch_block E2) x y : to2 (sum (eb_keys b')) = Some (x, y) ->
    public_inputs coords_of gsum gen2 blake2_out b b' = Ok (Some (map fqv (map (fun c => fq_of (from_bits_be c)) (chunks CAPACITY
      (digest_bits (map bits_le_val (pack_u8 (encode_to_bits_cip22 coords_of gen2 b First)))
         (map bits_le_val (pack_u8 (encode_to_bits_cip22 coords_of gen2 b' Last ++ encode_coords (x, y))))))))).
  Proof.
    intros E. unfold public_inputs, hash_first_last_epoch_block, blake2_first_epoch, blake2_last_epoch, encode_first_epoch_to_bytes_cip22,
      encode_last_epoch_to_bytes_with_aggregated_pk_cip22, encode_last_to_bits_with_agg. rewrite sum_gsum.
    replace (encode_public_key coords_of (sum (eb_keys b'))) with (encode_coords (x, y)) by (unfold encode_public_key, ProverSpec.coords_of; rewrite E; reflexivity).
    rewrite !pack_u8_native. cbn [rbind]. unfold EncodingModel.hash_to_bits. rewrite <- digest_native.
    destruct (pack p CAPACITY (digest_bits _ _)) as [l|] eqn:P.
    - pose proof P as P'. apply pack_native in P' as (inputs & M & <-); [|unfold CAPACITY; lia]. rewrite multipack_prover in M by (unfold CAPACITY; lia).
      set (q := map _ (chunks CAPACITY _)) in M |- *. clearbody q. injection M as <-. reflexivity.
    - rewrite pack_ok in P by (apply capacity_fits || (unfold CAPACITY; lia)). discriminate.
  Qed.
  Lemma prove_complete n b ts t max (helper : option (list (transition E1 E2) -> result HP)) : Z.of_nat n < p -> linear_at e gen2 -> (forall s, good_signature of1 to1 s) -> good_block n b ->
    honest e gen2 of2 to2 block_hash (has_entropy b) n b (ts ++ [t]) -> (exists c, to2 (sum (eb_keys (t_block t))) = Some c) ->
    (length (ts ++ [t]) <= max)%nat -> ((length (ts ++ [t]) < max)%nat -> padding_ok gen2 of1 of2 to2 sqrt ped compat n (last_block b ts)) ->
    match helper with None => True | Some f => exists h, f (ts ++ [t]) = Ok h end ->
    exists w inputs, prove gen1 gen2 helper (Z.of_nat n) b (ts ++ [t]) max = Ok w /\ length (vsu_epochs w) = max /\
      prover (generate_constraints w) = Val (inputs, true) /\ public_inputs coords_of gsum gen2 blake2_out b (t_block t) = Ok (Some (map fqv inputs)).
  Proof.
    intros Hn B GS Gb HO HC L PD HH. destruct (run_of_honest (has_entropy b) n (max - length (ts ++ [t])) t ts b HO) as (pairs & HR); [|exact HC|].
    { intros X. apply PD. lia. }
    set (us := map to_update ts ++ _) in HR. set (ss := map t_signature ts ++ _) in HR.
    assert (exists o, match helper with Some f => rbind (f (ts ++ [t])) (fun h => Ok (Some h)) | None => Ok None end = Ok o) as (o & Eo).
    { destruct helper as [f|]; [destruct HH as (h & ->); cbn [rbind]|]; eauto. }
    destruct (circuit_prover (has_entropy b) n b us pairs ss (t_block t) (sum ss) o Hn B (GS _) eq_refl) as (inputs & x & y & E & R & ->); [intros X; exact X|exact Gb|exact HR|].
    eexists _, _. split; [|split; [|split; [exact R|apply native_inputs; exact E]]].
    - unfold prove. rewrite updates_ok by exact L. cbn [rbind]. rewrite Eo. cbn [rbind]. rewrite signature_ok by exact L. reflexivity.
    - cbn [vsu_epochs]. unfold us. rewrite !app_length, map_length, repeat_length. rewrite app_length in L. cbn [length] in *. lia.
  Qed.

  (** ** Padding after a validator set that contains the padding key *)
  Lemma signers_all (ks : list E2) m l : signers ks (repeat true m) l -> l = ks.
  Proof. revert m l. induction ks as [|k ks IH]; intros [|m] l X; cbn [repeat] in X; inversion X; subst; [reflexivity|]. f_equal. eauto. Qed.
  Lemma dummy_fails n b us ebit constrain out : In gen2 (eb_keys b) ->
    prover (epochs_loop (dummy_item n :: us) (carried_of b) ebit (Z.of_nat n) constrain) <> Val (out, true).
  Proof.
    intros I X. cbn [EpochCircuitModel.epochs_loop] in X. apply prover_bind_inv in X as (r & X & _). unfold EpochCircuitModel.constrain_update in X.
    assert (L : length (ed_keys (su_data (dummy_item n))) = n) by (cbn; rewrite map_length; apply repeat_length). rewrite L, Z.eqb_refl in X. cbn [negb] in X.
    apply prover_bind_inv in X as ([v [[h crh] xof]] & _ & X). apply prover_bind_inv in X as (z & _ & X). apply prover_bind_inv in X as (u & _ & X).
    apply prover_bind_inv in X as (bm & B & X). change (su_bitmap (dummy_item n)) with (map Some (repeat true n)) in B. rewrite constrain_bool_prover in B. injection B as <-.
    apply prover_bind_inv in X as ([h' apk] & X & _). unfold enforce_bitmap in X. apply prover_bind_inv in X as (u' & _ & X). apply prover_bind_inv in X as (a & X & _).
    apply prover_holds, aggregated_holds in X as (l & S' & N & _). cbn [carried_of c_keys] in S'. apply signers_all in S'. subst l. contradiction.
  Qed.
  Lemma loop_prefix (l : Prop) n us : Z.of_nat n < p -> us <> [] -> forall ts b constrain ebit out, (ebit = true -> l) -> good_block n b -> honest e gen2 of2 to2 block_hash l n b ts ->
    prover (epochs_loop (map to_update ts ++ us) (carried_of b) ebit (Z.of_nat n) constrain) = Val (out, true) ->
    exists out', prover (epochs_loop us (carried_of (last_block b ts)) ebit (Z.of_nat n) constrain) = Val (out', true).
  Proof.
    intros Hn NE ts. induction ts as [|t ts IH]; intros b constrain ebit out Hl Gb HO X; [eauto|].
    apply honest_step_inv in HO as (signing & H & ST & HO). cbn [map app EpochCircuitModel.epochs_loop] in X.
    destruct (step_update _ _ _ _ _ _ _ _ _ constrain Hn Hl Gb ST) as (N & crh & xof & R). apply nz_bit in N as N'. assert (Gnb : good_block n (t_block t)) by apply ST.
    apply prover_bind_inv in X as (r & Y & X). change (to_update t) with (item (t_block t) (t_bitmap t)) in Y. rewrite R in Y. clear R. apply val_inj in Y. subst r.
    apply prover_bind_inv in X as (z & Y & X). rewrite is_eq_zero_prover in Y. apply val_inj in Y. subst z.
    apply prover_bind_inv in X as (apk & _ & X). apply prover_bind_inv in X as (h & _ & X). apply prover_bind_inv in X as (la & _ & X).
    apply prover_bind_inv in X as (out' & X & _). cbn [value v_index v_entropy v_max v_keys vars_of] in X.
    rewrite next_eq in X by (cbn [ProverSpec.header_of h_keys carried_of c_keys]; rewrite map_length; destruct Gnb as (_ & _ & _ & -> & _); symmetry; apply Gb).
    rewrite (next_real n) in X by assumption. apply (IH _ _ _ _ Hl Gnb HO) in X as (o' & X). exists o'. rewrite <- X. unfold last_block. cbn [map].
    destruct (map t_block ts) as [|b0 bs]; [reflexivity|]. change (last (t_block t :: b0 :: bs) b) with (last (b0 :: bs) b). rewrite (last_cons _ _ b (t_block t)). reflexivity.
  Qed.
  Lemma padding_fails n b ts t max (helper : option (list (transition E1 E2) -> result HP)) w inputs : Z.of_nat n < p -> good_block n b ->
    honest e gen2 of2 to2 block_hash (has_entropy b) n b (ts ++ [t]) -> (length (ts ++ [t]) < max)%nat -> In gen2 (eb_keys (last_block b ts)) ->
    prove gen1 gen2 helper (Z.of_nat n) b (ts ++ [t]) max = Ok w -> prover (generate_constraints w) <> Val (inputs, true).
  Proof.
    intros Hn Gb HO L I W X. unfold prove in W. rewrite updates_ok in W by lia. cbn [rbind] in W.
    destruct (match helper with Some f => rbind (f (ts ++ [t])) (fun h => Ok (Some h)) | None => Ok None end) as [o| |]; try discriminate. cbn [rbind] in W.
    rewrite signature_ok in W by lia. cbn [rbind] in W. apply ok_inj in W. subst w. unfold EpochCircuitModel.generate_constraints in X.
    apply prover_bind_inv in X as (bits & X & _). unfold enforce_epochs in X. cbn [vsu_initial vsu_epochs vsu_signature vsu_helper vsu_num_validators] in X.
    apply prover_bind_inv in X as (v0 & V & X). rewrite (to_bits_prover n b Gb) in V. apply val_inj in V. subst v0.
    apply prover_bind_inv in X as (out & X & _). unfold verify_intermediate_epochs in X. cbn [vsu_initial vsu_epochs vsu_signature vsu_helper vsu_num_validators] in X.
    apply prover_bind_inv in X as (z & Y & X). rewrite is_eq_zero_prover in Y. apply val_inj in Y. subst z.
    cbn [vars_of v_keys v_index v_entropy v_max value ProverSpec.header_of h_keys h_index h_entropy h_max] in X. rewrite map_map, map_id in X.
    assert (HO' : honest e gen2 of2 to2 block_hash (has_entropy b) n b ts).
    { revert HO. clear. generalize (has_entropy b) as l. revert b. induction ts as [|t0 ts IH]; intros b l HO; [constructor|]. cbn [app] in HO.
      inversion HO; subst. econstructor; eauto. }
    change (mk_carried (eb_keys b) (fq_of (eb_index b)) (entropy_number (eb_epoch_entropy b)) (fq_of (eb_max_non_signers b))) with (carried_of b) in X.
    apply (loop_prefix (has_entropy b)) in X; try assumption.
    - destruct X as (o' & X). destruct (max - length (ts ++ [t]))%nat as [|d] eqn:D; [lia|]. cbn [repeat app] in X. exact (dummy_fails _ _ _ _ _ _ I X).
    - destruct (repeat _ _); discriminate.
    - intros E. apply nz_bit in E. intros Z. apply E. unfold entropy_number. rewrite Z. reflexivity.
  Qed.

  (** ** Numbers of updates and panics *)
  Lemma prove_panics_empty (helper : option (list (transition E1 E2) -> result HP)) nv b max : (0 < max)%nat -> prove gen1 gen2 helper nv b [] max = Panic.
  Proof. intros H. unfold prove, prove_updates. cbn [map length]. apply Nat.ltb_lt in H. rewrite H. reflexivity. Qed.
  Lemma prove_panics_many (helper : option (list (transition E1 E2) -> result HP)) nv b ts max : match helper with None => True | Some f => exists h, f ts = Ok h end ->
    (max < length ts)%nat -> prove gen1 gen2 helper nv b ts max = Panic.
  Proof.
    intros HH L. unfold prove, prove_updates. rewrite map_length. assert ((length ts <? max)%nat = false) as -> by (apply Nat.ltb_ge; lia). cbn [rbind].
    assert (exists o, match helper with Some f => rbind (f ts) (fun h => Ok (Some h)) | None => Ok None end = Ok o) as (o & ->).
    { destruct helper as [f|]; [destruct HH as (h & ->); cbn [rbind]|]; eauto. }
    cbn [rbind]. unfold prove_signature. apply Nat.ltb_lt in L. rewrite L. reflexivity.
  Qed.
End Prover.

Lemma map_injective {A B} (f : A -> B) : (forall x y, f x = f y -> x = y) -> forall l l', map f l = map f l' -> l = l'.
Proof. intros H l. induction l as [|x l IH]; intros [|y l'] E; cbn [map] in E; try discriminate E; [reflexivity|]. injection E as E1 E2. f_equal; auto. Qed.

Section Shape.
  Context {E1 E2 : grp} (gen1 : E1) (gen2 : E2) {HP : Type}.
  Implicit Types (helper : option (list (transition E1 E2) -> result HP)).
  Lemma snoc_cases {A} (l : list A) : l = [] \/ exists l' x, l = l' ++ [x].
  Proof. induction l as [|x l' _] using rev_ind; eauto. Qed.
  Lemma helper_ok helper ts : (forall f, helper = Some f -> exists h, f ts = Ok h) ->
    exists o, match helper with Some f => rbind (f ts) (fun h => Ok (Some h)) | None => Ok None end = Ok o.
  Proof. intros HH. destruct helper as [f|]; [|eauto]. destruct (HH f eq_refl) as (h & ->). cbn [rbind]. eauto. Qed.
  Lemma prove_panics_iff helper num b ts max : (forall f, helper = Some f -> exists h, f ts = Ok h) ->
    prove gen1 gen2 helper num b ts max = Panic <-> (ts = [] /\ (0 < max)%nat) \/ (max < length ts)%nat.
  Proof.
    intros HH. destruct (helper_ok helper ts HH) as (o & Eo). unfold prove, prove_signature, prove_updates. rewrite map_length, Eo.
    destruct (snoc_cases ts) as [->|(l & t & ->)].
    - cbn [length map]. destruct (Nat.ltb_spec 0 max) as [L|L]; cbn [rbind].
      + split; [auto|reflexivity].
      + assert (max = 0%nat) as -> by lia. cbn. split; [intros X; discriminate X|intros [[_ X]|X]; lia].
    - destruct (Nat.ltb_spec (length (l ++ [t])) max) as [L|L].
      + rewrite app_length in *. cbn [length] in *. replace (length l + 1)%nat with (S (length l)) in * by lia.
        assert (nth_error (map to_update (l ++ [t])) (length l) = Some (to_update t)) as ->.
        { rewrite map_app, nth_error_app2; rewrite map_length; [|lia]. rewrite Nat.sub_diag. reflexivity. }
        cbn [rbind]. destruct (Nat.ltb_spec max (S (length l))); [lia|]. cbn [rbind]. split; [intros X; discriminate X|].
        intros [[X _]|X]; [destruct l; discriminate X|lia].
      + cbn [rbind]. destruct (Nat.ltb_spec max (length (l ++ [t]))) as [L'|L']; cbn [rbind]; [split; [auto|reflexivity]|].
        split; [intros X; discriminate X|]. intros [[X _]|X]; [destruct l; discriminate X|lia].
  Qed.
  Lemma prove_shape helper n b ts t max w : prove gen1 gen2 helper (Z.of_nat n) b (ts ++ [t]) max = Ok w ->
    length (vsu_epochs w) = max /\ exists dummies, vsu_epochs w = map to_update ts ++ dummies ++ [to_update t] /\
      Forall (fun u => u = to_update (mk_transition (dummy_block gen2 n) gen1 (repeat true n))) dummies /\
      vsu_initial w = to_epoch_data b /\ vsu_signature w = Some (sum (map t_signature ts ++ repeat gen1 (length dummies) ++ [t_signature t])).
  Proof.
    intros W. destruct (Nat.ltb_spec max (length (ts ++ [t]))) as [L|L].
    - exfalso. unfold prove in W. destruct (prove_updates _ _ _ _) as [u| |]; cbn [rbind] in W; try discriminate W.
      destruct (match helper with Some f => rbind (f (ts ++ [t])) (fun h => Ok (Some h)) | None => Ok None end) as [o| |]; cbn [rbind] in W; try discriminate W.
      unfold prove_signature in W. apply Nat.ltb_lt in L. rewrite L in W. discriminate W.
    - unfold prove in W. rewrite updates_ok in W by exact L. cbn [rbind] in W.
      destruct (match helper with Some f => rbind (f (ts ++ [t])) (fun h => Ok (Some h)) | None => Ok None end) as [o| |]; cbn [rbind] in W; try discriminate W.
      rewrite signature_ok in W by exact L. cbn [rbind] in W. apply ok_inj in W. subst w. cbn [vsu_epochs vsu_initial vsu_signature]. split.
      + rewrite !app_length, map_length, repeat_length in *. cbn [length] in *. lia.
      + eexists. split; [reflexivity|]. split; [|split; [reflexivity|rewrite repeat_length; reflexivity]].
        apply Forall_forall. intros u U. apply repeat_spec in U. exact U.
  Qed.
End Shape.

Section Unpadded.
  Context {E2 : grp} (gen2 : E2) (of2 : apoint fq2 -> E2) (to2 : E2 -> apoint fq2).
  Implicit Types (b : epoch_block E2).
  Lemma padded_len n b m : good_block of2 to2 n b -> Z.of_nat n < m ->
    (length (encode_keys_padded (coords_of to2) gen2 b) < length (encode_keys_padded (coords_of to2) gen2 (set_maximum m b)))%nat.
  Proof.
    intros (_ & _ & _ & L & M & _) Lm. unfold encode_keys_padded. cbn [set_maximum eb_keys eb_max_validators]. rewrite L, !app_length.
    destruct (Z.ltb_spec (Z.of_nat n) (eb_max_validators b)); [lia|]. destruct (Z.ltb_spec (Z.of_nat n) m); [|lia].
    cbn [length]. rewrite (flat_map_concat_map _ (seq _ _)). destruct (Z.to_nat (m - Z.of_nat n)) as [|k] eqn:K; [lia|]. cbn [seq map concat]. rewrite app_length.
    unfold encode_public_key at 3. rewrite encode_coords_length. lia.
  Qed.
  Lemma unpadded n b m : good_block of2 to2 n b -> Z.of_nat n < m ->
    v_bits (vars_of (header_of to2 b)) <> fst (encode_inner_to_bits_cip22 (coords_of to2) gen2 (set_maximum m b)) /\
    v_first (vars_of (header_of to2 b)) <> encode_to_bits_cip22 (coords_of to2) gen2 (set_maximum m b) First /\
    v_last (vars_of (header_of to2 b)) <> encode_to_bits_cip22 (coords_of to2) gen2 (set_maximum m b) Last.
  Proof.
    intros G Lm. pose proof (padded_len n b m G Lm) as P. pose proof (header_signed gen2 of2 to2 n b G) as S1.
    pose proof (header_first gen2 of2 to2 n b G) as S2. pose proof (header_closing gen2 of2 to2 n b G) as S3.
    cbn [v_bits v_first v_last vars_of]. rewrite S2, S3. apply (f_equal fst) in S1. cbn [fst] in S1. rewrite S1.
    repeat split; intros X; apply (f_equal (@length bool)) in X; unfold encode_inner_to_bits_cip22, encode_to_bits_cip22 in X; cbn [fst] in X;
      rewrite !app_length in X; cbn [set_maximum eb_keys eb_max_validators eb_index eb_epoch_entropy eb_parent_entropy eb_max_non_signers] in X; lia.
  Qed.
End Unpadded.
