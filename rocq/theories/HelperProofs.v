(** Proofs about the helper circuit and about what the epoch circuit compares it with. *)
From Coq Require Import Znumtheory.
From Verif Require Import Base Constants Group Instances Field Curve BitsModel BitsProofs EncodingModel EncodingSpec EncodingProofs Blake2 HasherModel HasherSpec HasherProofs
  PointModel HashCurveModel HashCurveSpec CodecSpec Circuit CircuitFacts GadgetModel GadgetSpec GadgetProofs HashGadgetModel HashGadgetSpec HashGadgetProofs HashGadgetNative
  EpochCircuitModel EpochProofs EpochCircuitProofs ProverModel HelperModel HelperSpec.

(** ** F_r *)
Lemma r_bits : 2 ^ 252 <= r < 2 ^ 253. Proof. split; [intros H; vm_compute in H; discriminate H|reflexivity]. Qed.
Lemma zr_range_val (x : zr) : 0 <= zr_val x < r.
Proof. rewrite <- zr_val_mod. apply Z.mod_pos_bound. reflexivity. Qed.
Lemma bfr_val b : zr_val (bfr b) = if b then 1 else 0. Proof. destruct b; vm_compute; reflexivity. Qed.
Lemma fr_bool_iff (v : zr) : (zr_val (zr_mk ((1 - zr_val v) * zr_val v)) =? 0) = true <-> exists b, v = bfr b.
Proof.
  rewrite Z.eqb_eq, zr_val_mk. split.
  - intros H. apply Z.mod_divide in H; [|discriminate]. apply prime_mult in H; [|apply prime_r]. pose proof (zr_range_val v) as R. assert (R1 : 1 < r) by reflexivity.
    assert (K : forall k y, y = k * r -> - r < y < r -> k = 0) by (intros k y -> ?; nia). destruct H as [[k H]|[k H]].
    + exists true. apply zr_ext. rewrite bfr_val. apply K in H as K0; [|lia]. rewrite K0 in H. lia.
    + exists false. apply zr_ext. rewrite bfr_val. apply K in H as K0; [|lia]. rewrite K0 in H. lia.
  - intros [b ->]. rewrite bfr_val. destruct b; reflexivity.
Qed.
Lemma bfr_is_1 b : (zr_val (bfr b) =? 1) = b. Proof. rewrite bfr_val. destruct b; reflexivity. Qed.
Lemma new_bool_fr_holds h b : holds (new_bool_fr h) b.
Proof. cbn [new_bool_fr holds]. exists (bfr b). split; [apply fr_bool_iff; eauto|apply bfr_is_1]. Qed.
Lemma new_bool_fr_prover b : prover (new_bool_fr (Val b)) = Val (b, true).
Proof.
  unfold new_bool_fr. cbn [smap prover]. rewrite bfr_is_1, andb_true_r. f_equal. f_equal. apply fr_bool_iff. eauto.
Qed.
Lemma constrain_fr_holds o bits : holds (constrain_bool_fr o) bits <-> length o = length bits.
Proof.
  unfold constrain_bool_fr. rewrite holds_cmap. split.
  - apply forall2_len.
  - revert bits. induction o as [|x o IH]; intros [|b bits] L; try discriminate L; constructor; [apply new_bool_fr_holds|apply IH]. injection L as L. exact L.
Qed.
Lemma constrain_fr_prover bits : prover (constrain_bool_fr (map Some bits)) = Val (bits, true).
Proof.
  unfold constrain_bool_fr. induction bits as [|b bits IH]; [reflexivity|]. cbn [map cmap get]. eapply prover_bind_val; [apply new_bool_fr_prover|].
  eapply prover_bind_val; [exact IH|reflexivity].
Qed.
Lemma fr_bits_length x : length (map (fun i => Z.testbit (zr_val x) (Z.of_nat i)) (seq 0 FR_BITS)) = FR_BITS.
Proof. rewrite map_length, seq_length. reflexivity. Qed.
Lemma fr_bits_val x : bits_le_val (map (fun i => Z.testbit (zr_val x) (Z.of_nat i)) (seq 0 FR_BITS)) = zr_val x.
Proof.
  pose proof (zr_range_val x) as R. rewrite testbits_val by lia. apply Z.mod_small. pose proof r_bits. change (Z.of_nat FR_BITS) with 253. lia.
Qed.
Lemma chunk_bits_fr chunk x : (length chunk <= FR_BITS)%nat ->
  skipn (FR_BITS - length chunk) (fr_bits_be x) = chunk <-> zr_val x mod 2 ^ Z.of_nat (length chunk) = from_bits_be chunk.
Proof.
  intros L. unfold fr_bits_be, from_bits_be. rewrite skipn_rev, fr_bits_length. replace (FR_BITS - (FR_BITS - length chunk))%nat with (length chunk) by lia.
  pose proof (fr_bits_val x) as V. pose proof (fr_bits_length x) as VL. set (l := map _ (seq 0 FR_BITS)) in *. rewrite <- V, <- bits_le_val_firstn. split.
  - intros H. apply (f_equal (@rev bool)) in H. rewrite rev_involutive in H. rewrite H. reflexivity.
  - intros H. apply bits_le_val_inj in H; [rewrite H; apply rev_involutive|]. rewrite firstn_length, VL, rev_length. lia.
Qed.
Lemma pack_chunk_fr_holds chunk x : (length chunk <= FR_BITS)%nat ->
  holds (pack_chunk_fr chunk) x <-> zr_val x mod 2 ^ Z.of_nat (length chunk) = from_bits_be chunk.
Proof.
  intros L. rewrite <- chunk_bits_fr by exact L. unfold pack_chunk_fr. assert ((length chunk <=? FR_BITS)%nat = true) as -> by (apply Nat.leb_le; exact L).
  assert (LL : length (skipn (FR_BITS - length chunk) (fr_bits_be x)) = length chunk).
  { rewrite skipn_length. unfold fr_bits_be. rewrite rev_length, fr_bits_length. lia. }
  split.
  - intros H. apply holds_bind in H as (y & _ & H). apply holds_bind in H as (u & H & E). cbn [holds] in E. subst y. apply (proj1 (enforce_bits_holds _ _ _ LL)) in H. exact H.
  - intros H. apply holds_bind. exists x. split; [apply holds_witness|]. apply holds_bind. exists tt. split; [|reflexivity].
    apply enforce_bits_holds; [exact LL|exact H].
Qed.
Lemma pack_chunk_fr_prover chunk : (length chunk <= 252)%nat -> prover (pack_chunk_fr chunk) = Val (zr_mk (from_bits_be chunk), true).
Proof.
  intros L. unfold pack_chunk_fr. assert ((length chunk <=? FR_BITS)%nat = true) as -> by (apply Nat.leb_le; unfold FR_BITS; lia).
  pose proof (from_bits_be_bound chunk) as B. pose proof r_bits as P.
  assert (M : 2 ^ Z.of_nat (length chunk) <= 2 ^ 252) by (apply Z.pow_le_mono_r; lia).
  unfold from_repr. assert (from_bits_be chunk <? r = true) as -> by (apply Z.ltb_lt; lia).
  apply (prover_bind_val _ _ (zr_mk (from_bits_be chunk))); [reflexivity|]. apply (prover_bind_val _ _ tt); [|reflexivity].
  assert (E : skipn (FR_BITS - length chunk) (fr_bits_be (zr_mk (from_bits_be chunk))) = chunk).
  { apply chunk_bits_fr; [unfold FR_BITS; lia|]. rewrite zr_val_mk, (Z.mod_small _ r) by lia. apply Z.mod_small. lia. }
  rewrite E. apply enforce_bits_prover.
Qed.
Lemma multipack_fr_holds bits inputs : holds (multipack_fr bits BLS_CAPACITY) inputs <-> carries 252 bits inputs.
Proof.
  unfold multipack_fr, carries. change (holds (cmap pack_chunk_fr (chunks 252 bits)) inputs <-> Forall2 (fun chunk x => zr_val x mod 2 ^ Z.of_nat (length chunk) = bits_number_be chunk) (chunks 252 bits) inputs).
  rewrite holds_cmap. assert (F : Forall (fun c : list bool => (length c <= 252)%nat) (chunks 252 bits)).
  { apply Forall_forall. intros c Hc. pose proof (chunks_forall_len 252 bits ltac:(lia)) as F. rewrite Forall_forall in F. apply F in Hc. lia. }
  split; (intros H; induction H as [|c x cs xs H _ IH]; constructor; inversion F as [|? ? F1 F2]; subst; [|exact (IH F2)]).
  - apply pack_chunk_fr_holds in H; [|unfold FR_BITS; lia]. rewrite H, bits_number_be_eq. reflexivity.
  - apply pack_chunk_fr_holds; [unfold FR_BITS; lia|]. rewrite H, bits_number_be_eq. reflexivity.
Qed.
Lemma multipack_fr_prover bits : prover (multipack_fr bits BLS_CAPACITY) = Val (map (fun c => zr_mk (from_bits_be c)) (chunks 252 bits), true).
Proof.
  change (prover (cmap pack_chunk_fr (chunks 252 bits)) = Val (map (fun c => zr_mk (from_bits_be c)) (chunks 252 bits), true)).
  apply prover_cmap. intros c Hc. apply pack_chunk_fr_prover. pose proof (chunks_forall_len 252 bits ltac:(lia)) as F.
  rewrite Forall_forall in F. specialize (F _ Hc). cbv beta in F. lia.
Qed.
Lemma pack_fr bits : pack r 252 bits = Some (map zr_val (map (fun c => zr_mk (from_bits_be c)) (chunks 252 bits))).
Proof.
  pose proof r_bits as P. rewrite pack_ok by lia. f_equal. rewrite map_map. apply map_ext_in. intros c Hc. rewrite zr_val_mk. symmetry. apply Z.mod_small.
  pose proof (chunks_forall_len 252 bits ltac:(lia)) as F. rewrite Forall_forall in F. specialize (F _ Hc). pose proof (from_bits_be_bound c) as B.
  assert (2 ^ Z.of_nat (length c) <= 2 ^ 252) by (apply Z.pow_le_mono_r; lia). lia.
Qed.
Lemma carries_determines l l' inputs : length l = length l' -> carries 252 l inputs -> carries 252 l' inputs -> l = l'.
Proof.
  intros L H H'. assert (C : chunks 252 l = chunks 252 l').
  { pose proof (chunks_shape 252 l l' ltac:(lia) L) as S. unfold carries in *. revert S H'. clear -H. generalize (chunks 252 l'). clear l'. revert H.
    generalize (chunks 252 l). clear l. intros ch H. induction H as [|c x cs xs H _ IH]; intros l' Hl H'; inversion H'; subst; try discriminate Hl; [reflexivity|].
    cbn [map] in Hl. injection Hl as E1 E2. f_equal; [|apply IH; assumption]. apply from_bits_be_inj; [exact E1|]. rewrite <- !bits_number_be_eq. rewrite E1 in H. congruence. }
  rewrite <- (concat_chunks 252 l), <- (concat_chunks 252 l'), C by lia. reflexivity.
Qed.

(** ** The circuit *)
Lemma msg_bits_eq l : msg_bits l = bits_of_bytes l.
Proof. symmetry. unfold msg_bits, bits_of_bytes. apply flat_map_ext. intros b. apply byte_bits_testbit. Qed.
Lemma expansion_iff m x : expansion m x <-> x = xof_bytes SIG_DOMAIN m.
Proof. unfold expansion. rewrite xof_bytes_ok by (rewrite sig_len; lia). split; [intros H; apply ok_inj in H; congruence|intros ->; reflexivity]. Qed.
Lemma expansion_len m x : expansion m x -> length x = 64%nat /\ is_bytes x = true.
Proof. intros H. apply expansion_iff in H. subst x. apply xof_bytes_len. rewrite sig_len. lia. Qed.
Definition part (m : list (option bool)) : circ (list bool * list bool) :=
  (bits <- constrain_bool_fr m ;; hash <- HashGadgetModel.hash_to_bits bits 512 SIG_DOMAIN true ;; Ret (bits, hash))%circ.
Lemma hash_uneven message d : (length message mod 8 <> 0)%nat -> forall x, ~ holds (HashGadgetModel.hash_to_bits message 512 d true) x.
Proof.
  intros L x. unfold HashGadgetModel.hash_to_bits. change (512 mod 256 =? 0) with true. cbv iota. change (Z.to_nat (512 / 256)) with 2%nat.
  cbn [seq cmap]. unfold evaluate_blake2s. apply Nat.eqb_neq in L. rewrite L. unfold panics. cbn [cbind holds]. auto.
Qed.
Lemma bits_bytes l : (length l mod 8 = 0)%nat -> bits_of_bytes (bytes_of_bits l) = l /\ length l = (8 * length (bytes_of_bits l))%nat /\ is_bytes (bytes_of_bits l) = true.
Proof.
  intros L. rewrite bytes_of_bits_pack. assert (E : length l = (8 * length (pack_bytes l))%nat).
  { rewrite pack_bytes_length. pose proof (Nat.div_mod (length l) 8 ltac:(lia)) as D. rewrite L in D. rewrite D at 2.
    replace (8 * (length l / 8) + 0 + 7)%nat with (7 + (length l / 8) * 8)%nat by lia. rewrite Nat.div_add by lia. change (7 / 8)%nat with 0%nat. lia. }
  split; [|split; [exact E|apply pack_bytes_is_bytes]].
  rewrite bits_of_bytes_le, <- E, bits_roundtrip by (rewrite <- pack_bytes_length; lia). rewrite Nat.sub_diag. apply app_nil_r.
Qed.
Lemma part_holds o bits hash : holds (part o) (bits, hash) <->
  exists m, length o = (8 * length m)%nat /\ is_bytes m = true /\ bits = msg_bits m /\ hash = msg_bits (xof_bytes SIG_DOMAIN m).
Proof.
  unfold part. split.
  - intros H. apply holds_bind in H as (b & Hb & H). apply constrain_fr_holds in Hb. apply holds_bind in H as (x & Hx & H). cbn [holds] in H. injection H as -> ->.
    destruct (Nat.eq_dec (length bits mod 8) 0) as [M|M]; [|exfalso; exact (hash_uneven _ _ M _ Hx)].
    rewrite (hash_to_bits_run _ _ sig_len M) in Hx. cbn [holds] in Hx. destruct (bits_bytes bits M) as (E1 & E2 & E3).
    exists (bytes_of_bits bits). rewrite !msg_bits_eq. repeat split; [congruence|exact E3|symmetry; exact E1|symmetry; exact Hx].
  - intros (m & L & B & -> & ->). rewrite !msg_bits_eq. apply holds_bind. exists (bits_of_bytes m). split; [apply constrain_fr_holds; rewrite bits_of_bytes_length; exact L|].
    apply holds_bind. exists (bits_of_bytes (xof_bytes SIG_DOMAIN m)). split; [|reflexivity].
    rewrite hash_to_bits_run; [|exact sig_len|rewrite bits_of_bytes_length, Nat.mul_comm; apply Nat.mod_mul; lia]. rewrite bytes_bits by exact B. reflexivity.
Qed.
Lemma parts_holds shape parts : Forall2 (fun o p => holds (part o) p) shape parts <->
  exists ms, Forall2 (fun o m => length o = (8 * length m)%nat /\ is_bytes m = true) shape ms /\
    parts = map (fun m => (msg_bits m, msg_bits (xof_bytes SIG_DOMAIN m))) ms.
Proof.
  split.
  - induction 1 as [|o [bits hash] shape parts H _ (ms & F & ->)]; [exists []; split; [constructor|reflexivity]|].
    apply part_holds in H as (m & L & B & -> & ->). exists (m :: ms). split; [constructor; auto|reflexivity].
  - intros (ms & F & ->). induction F as [|o m shape ms [L B] _ IH]; cbn [map]; constructor; [|exact IH]. apply part_holds. exists m. auto.
Qed.
Lemma concat_flat {A B} (f : A -> list B) l : concat (map f l) = flat_map f l. Proof. symmetry. apply flat_map_concat_map. Qed.
Lemma circuit_holds shape inputs : holds (hash_to_bits_circuit shape) inputs <-> exists ms, helper_statement shape inputs ms.
Proof.
  unfold hash_to_bits_circuit. fold part. split.
  - intros H. apply holds_bind in H as (parts & Hp & H). apply holds_cmap, parts_holds in Hp as (ms & F & ->).
    apply holds_bind in H as (a & Ha & H). apply holds_bind in H as (b & Hb & H). cbn [holds] in H. apply multipack_fr_holds in Ha, Hb.
    rewrite map_map in Ha, Hb. cbn [fst snd] in Ha, Hb. rewrite concat_flat in Ha, Hb.
    exists ms. split; [exact F|]. exists (map (xof_bytes SIG_DOMAIN) ms), a, b. split; [|split; [symmetry; exact H|split; [exact Ha|]]].
    + clear. induction ms; constructor; [apply expansion_iff; reflexivity|assumption].
    + rewrite <- concat_flat, map_map, concat_flat. exact Hb.
  - intros (ms & F & xs & a & b & E & -> & Ha & Hb). apply holds_bind. exists (map (fun m => (msg_bits m, msg_bits (xof_bytes SIG_DOMAIN m))) ms).
    split; [apply holds_cmap, parts_holds; eauto|]. rewrite !map_map. cbn [fst snd]. rewrite !concat_flat.
    assert (xs = map (xof_bytes SIG_DOMAIN) ms) as ->.
    { clear -E. induction E as [|m x ms xs H _ IH]; [reflexivity|]. apply expansion_iff in H. cbn [map]. congruence. }
    apply holds_bind. exists a. split; [apply multipack_fr_holds; exact Ha|]. apply holds_bind. exists b. split; [|reflexivity]. apply multipack_fr_holds.
    rewrite <- concat_flat, map_map, concat_flat in Hb. exact Hb.
Qed.
Lemma flat_len l n : Forall (fun m : bytes => length m = n) l -> length (flat_map msg_bits l) = (8 * n * length l)%nat.
Proof.
  induction 1 as [|m l H _ IH]; [cbn; lia|]. cbn [flat_map length]. rewrite app_length, IH, msg_bits_eq, bits_of_bytes_length, H. lia.
Qed.
Lemma flat_len_shape shape (ms : list bytes) : Forall2 (fun (o : list (option bool)) m => length o = (8 * length m)%nat /\ is_bytes m = true) shape ms ->
  length (flat_map msg_bits ms) = length (concat shape).
Proof.
  induction 1 as [|o m shape ms [H _] _ IH]; [reflexivity|]. cbn [flat_map concat]. rewrite !app_length, IH, msg_bits_eq, bits_of_bytes_length, H. reflexivity.
Qed.
Lemma msg_bits_inj a b : is_bytes a = true -> is_bytes b = true -> msg_bits a = msg_bits b -> a = b.
Proof. intros A B H. rewrite !msg_bits_eq in H. apply (f_equal bytes_of_bits) in H. rewrite !bytes_bits in H by assumption. exact H. Qed.
Lemma app_inj_len {A} (a b c d : list A) : length a = length c -> a ++ b = c ++ d -> a = c /\ b = d.
Proof. revert c. induction a as [|x a IH]; intros [|y c] L E; try discriminate L; [auto|]. injection L as L. injection E as -> E. destruct (IH _ L E) as [-> ->]. auto. Qed.
Lemma flat_inj shape ms ms' : Forall2 (fun (o : list (option bool)) m => length o = (8 * length m)%nat /\ is_bytes m = true) shape ms ->
  Forall2 (fun (o : list (option bool)) m => length o = (8 * length m)%nat /\ is_bytes m = true) shape ms' ->
  flat_map msg_bits ms = flat_map msg_bits ms' -> ms = ms'.
Proof.
  intros F. revert ms'. induction F as [|o m shape ms [H B] _ IH]; intros ms' F' E; inversion F' as [|? m' ? ms2 [H' B'] F2]; subst; [reflexivity|].
  cbn [flat_map] in E. apply app_inj_len in E as [E1 E2]; [|rewrite !msg_bits_eq, !bits_of_bytes_length; lia]. f_equal; [apply msg_bits_inj; assumption|apply IH; assumption].
Qed.
Lemma carries_len l a : carries 252 l a -> length a = ((length l + 251) / 252)%nat.
Proof. intros H. apply forall2_len in H. rewrite chunks_length in H by lia. rewrite <- H. f_equal. lia. Qed.
Lemma statement_binding shape inputs ms ms' : helper_statement shape inputs ms -> helper_statement shape inputs ms' -> ms = ms'.
Proof.
  intros (F & xs & a & b & _ & E & Ha & _) (F' & xs' & a' & b' & _ & E' & Ha' & _). apply (flat_inj shape); try assumption.
  assert (L : length (flat_map msg_bits ms) = length (flat_map msg_bits ms')) by (rewrite !(flat_len_shape shape) by assumption; reflexivity).
  apply (carries_determines _ _ a); [exact L|exact Ha|]. rewrite E in E'. apply app_inj_len in E' as [-> _]; [exact Ha'|].
  rewrite (carries_len _ _ Ha), (carries_len _ _ Ha'), L. reflexivity.
Qed.
Lemma circuit_complete (ms : list bytes) : Forall (fun m => is_bytes m = true) ms ->
  exists inputs a b, prover (hash_to_bits_circuit (map (fun m => map Some (msg_bits m)) ms)) = Val (inputs, true) /\
    pack r 252 (flat_map msg_bits ms) = Some a /\ (exists xs, Forall2 expansion ms xs /\ pack r 252 (flat_map msg_bits xs) = Some b) /\ map zr_val inputs = a ++ b.
Proof.
  intros F. eexists _, _, _. split; [|split; [apply pack_fr|split; [exists (map (xof_bytes SIG_DOMAIN) ms); split; [|apply pack_fr]|rewrite <- map_app; reflexivity]]].
  - unfold hash_to_bits_circuit. fold part. apply (prover_bind_val _ _ (map (fun m => (msg_bits m, msg_bits (xof_bytes SIG_DOMAIN m))) ms)).
    + induction F as [|m ms B _ IH]; [reflexivity|]. cbn [map cmap]. eapply prover_bind_val; [|eapply prover_bind_val; [exact IH|reflexivity]].
      unfold part. eapply prover_bind_val; [apply constrain_fr_prover|]. rewrite !msg_bits_eq.
      rewrite hash_to_bits_run; [|exact sig_len|rewrite bits_of_bytes_length, Nat.mul_comm; apply Nat.mod_mul; lia]. rewrite bytes_bits by exact B. reflexivity.
    + rewrite !map_map. cbn [fst snd]. rewrite !concat_flat. eapply prover_bind_val; [apply multipack_fr_prover|].
      eapply prover_bind_val; [apply multipack_fr_prover|]. rewrite <- (concat_flat msg_bits (map _ ms)), map_map, concat_flat. reflexivity.
  - clear. induction ms; constructor; [apply expansion_iff; reflexivity|assumption].
Qed.

(** ** What the epoch circuit has to compare *)
Lemma prover_bind_any {A B} (c : circ A) (f : A -> circ B) y s : prover (cbind c f) = Val (y, s) ->
  exists x s1 s2, prover c = Val (x, s1) /\ prover (f x) = Val (y, s2).
Proof.
  rewrite prover_bind. destruct (prover c) as [[x s1]|e|] eqn:E; try (intros D; discriminate D).
  intros H. destruct (prover (f x)) as [[y' s2]|e|] eqn:E2; cbn [smap] in H; try discriminate H. exists x, s1, s2. split; [reflexivity|]. injection H as -> _. exact E2.
Qed.
Lemma prover_cmap_len {A B} (f : A -> circ B) l ys s : prover (cmap f l) = Val (ys, s) -> length ys = length l.
Proof.
  revert ys s. induction l as [|a l IH]; intros ys s H; cbn [cmap] in H. { cbn [prover] in H. injection H as <- _. reflexivity. }
  apply prover_bind_any in H as (x & s1 & s2 & _ & H). apply prover_bind_any in H as (xs & s3 & s4 & H & H'). cbn [prover] in H'. injection H' as <- _.
  cbn [length]. f_equal. exact (IH _ _ H).
Qed.
Lemma new_u8_len h l s : prover (new_u8 h) = Val (l, s) -> u8_var l.
Proof. intros H. apply prover_cmap_len in H. exact H. Qed.
(** a prefix and the digest of an epoch *)
Definition item_ok (i : bytes * bytes) : Prop := (length (fst i) = 8%nat /\ is_bytes (fst i) = true) /\ length (snd i) = 48%nat /\ is_bytes (snd i) = true.
Definition items_crh (l : list (bytes * bytes)) : list bool := flat_map (fun i => msg_bits (snd i)) l.
Definition items_xof (l : list (bytes * bytes)) : list bool := flat_map (fun i => msg_bits (xof_bytes SIG_DOMAIN (fst i ++ snd i))) l.
Section Epochs.
  Context {E1 E2 GT : grp} (e : E1 -> E2 -> GT) (gen1 : E1) (gen2 : E2).
  Context (of1 : apoint fq -> E1) (of2 : apoint fq2 -> E2) (to1 : E1 -> apoint fq) (to2 : E2 -> apoint fq2).
  Context (sqrt : fq -> option fq) (ped : bytes -> option fq) (compat pin debug : bool) {HP : Type}.
  Lemma hash_run counter message extra constrain h crh xof s : u8_var counter -> Forall u8_var extra -> length extra = 7%nat ->
    prover (enforce_hash_to_group of1 sqrt ped compat pin counter message extra constrain) = Val ((h, crh, xof), s) ->
    exists i, item_ok i /\ crh = msg_bits (snd i) /\ xof = msg_bits (xof_bytes SIG_DOMAIN (fst i ++ snd i)).
  Proof.
    intros Hc He L7 H. unfold enforce_hash_to_group, pedersen_hash in H. destruct (ped (map bits_le_val message)) as [x|]; [|discriminate H]. cbn [cbind] in H.
    destruct (input_bytes counter extra x Hc He) as [I1 I2].
    assert (R : prover (HashGadgetModel.hash_to_bits (counter ++ concat extra ++ pad_byte (to_bits_le x)) 512 SIG_DOMAIN constrain)
                = Val (gadget_xof counter extra x, true)).
    { destruct constrain; [rewrite (hash_to_bits_run _ _ sig_len I1), I2; reflexivity|].
      rewrite hash_to_bits_free_prover by exact sig_len. rewrite <- bytes_of_bits_pack, I2. reflexivity. }
    apply prover_bind_any in H as (xof' & s1 & s2 & Hx & H). rewrite R in Hx. injection Hx as <- _.
    apply prover_bind_any in H as (h' & s3 & s4 & _ & H). cbn [prover] in H. injection H as _ <- <- _.
    exists (bits_le_val counter :: map bits_le_val extra, le_bytes 48 (fqv x)). cbn [fst snd]. rewrite !msg_bits_eq, pad_byte_fq. split; [|split; reflexivity].
    split; [|split; [apply le_bytes_length|apply le_bytes_is_bytes]]. cbn [fst]. split; [cbn [length]; rewrite map_length, L7; reflexivity|].
    apply forallb_forall. intros b Hb. assert (U : exists v, u8_var v /\ b = bits_le_val v).
    { destruct Hb as [<-|Hb]; [exists counter; auto|]. apply in_map_iff in Hb as (v & <- & Hv). rewrite Forall_forall in He. exists v. auto. }
    destruct U as (v & Hv & ->). pose proof (bits_le_val_bound v) as B. rewrite Hv in B. change (2 ^ Z.of_nat 8) with 256 in B. apply andb_true_intro. split; [apply Z.leb_le|apply Z.ltb_lt]; lia.
  Qed.
  Lemma extra_len d v s : prover (to_bits of2 to2 pin d) = Val (v, s) -> length (pack_u8 (v_extra v)) = 7%nat.
  Proof.
    unfold to_bits. intros H. do 6 (apply prover_bind_any in H as (? & ? & ? & _ & H)). cbn [prover] in H.
    apply (f_equal (fun r => match r with Val (a, _) => v_extra a | _ => [] end)) in H. cbv beta iota in H. rewrite <- H. cbn [v_extra]. clear H.
    unfold pack_u8, fr_to_bits. rewrite map_length, chunks_length, rev_length, !app_length, !firstn_length, !to_bits_le_length by lia. reflexivity.
  Qed.
  Lemma update_run u c ebit nv constrain v h crh xof apk s :
    prover (constrain_update gen2 of1 of2 to2 sqrt ped compat pin debug u c ebit nv constrain) = Val ((v, (h, crh, xof), apk), s) ->
    exists i, item_ok i /\ crh = msg_bits (snd i) /\ xof = msg_bits (xof_bytes SIG_DOMAIN (fst i ++ snd i)).
  Proof.
    unfold constrain_update. destruct (negb _); [intros D; discriminate D|]. intros H.
    apply prover_bind_any in H as ([v1 [[h1 crh1] xof1]] & s1 & s2 & Hd & H).
    apply prover_bind_any in H as (z & s3 & s4 & _ & H). apply prover_bind_any in H as (t & s5 & s6 & _ & H).
    apply prover_bind_any in H as (bm & s7 & s8 & _ & H). apply prover_bind_any in H as ([h2 apk2] & s9 & s10 & _ & H). cbn [prover] in H.
    injection H as _ _ <- <- _ _. unfold constrain_data in Hd.
    apply prover_bind_any in Hd as (v3 & s11 & s12 & Hv3 & H). apply prover_bind_any in H as (t' & s13 & s14 & _ & H).
    apply prover_bind_any in H as (h3 & s15 & s16 & H & H'). cbn [prover] in H'. injection H' as _ -> _. unfold hash_bits_to_g1 in H.
    apply prover_bind_any in H as (ctr & s17 & s18 & Hctr & H). apply new_u8_len in Hctr.
    apply hash_run in H; [exact H|exact Hctr|apply pack_u8_var|exact (extra_len _ _ _ Hv3)].
  Qed.
  Lemma loop_run us c ebit nv constrain last crh xof apks hs s :
    prover (epochs_loop gen1 gen2 of1 of2 to2 sqrt ped compat pin debug us c ebit nv constrain) = Val ((last, crh, xof, apks, hs), s) ->
    exists items, length items = length us /\ Forall item_ok items /\ crh = items_crh items /\ xof = items_xof items.
  Proof.
    revert c last crh xof apks hs s. induction us as [|u us IH]; intros c last crh xof apks hs s H; cbn [epochs_loop] in H.
    { cbn [prover] in H. injection H as _ <- <- _ _ _. exists []. repeat split. constructor. }
    apply prover_bind_any in H as ([[v1 [[h1 crh1] xof1]] agg] & s1 & s2 & Hu & H). apply update_run in Hu as (i & I1 & I2 & I3).
    apply prover_bind_any in H as (z & s3 & s4 & _ & H). apply prover_bind_any in H as (apk & s5 & s6 & _ & H).
    apply prover_bind_any in H as (h & s7 & s8 & _ & H). apply prover_bind_any in H as (lst & s9 & s10 & _ & H).
    apply prover_bind_any in H as ([[[[last' crhs] xofs] apks'] hs'] & s11 & s12 & Hl & H). cbn [prover] in H. injection H as _ <- <- _ _ _.
    apply IH in Hl as (items & L & F & -> & ->). exists (i :: items). cbn [length]. split; [congruence|]. split; [constructor; assumption|].
    unfold items_crh, items_xof. cbn [flat_map]. rewrite I2, I3. split; reflexivity.
  Qed.
  Lemma enforce_run (w : validator_set_update E1 E2 HP) b s :
    prover (enforce_epochs e gen1 gen2 of1 of2 to1 to2 sqrt ped compat pin debug w) = Val (b, s) ->
    exists items, length items = length (vsu_epochs w) /\ Forall item_ok items /\ b_crh b = items_crh items /\ b_xof b = items_xof items.
  Proof.
    unfold enforce_epochs. intros H. apply prover_bind_any in H as (v0 & s1 & s2 & _ & H).
    apply prover_bind_any in H as ([[[[last crh] xof] apks] hs] & s3 & s4 & Hl & H). apply prover_bind_any in H as (t & s5 & s6 & _ & H).
    cbn [prover] in H. injection H as <- _. cbn [b_crh b_xof]. unfold verify_intermediate_epochs in Hl.
    apply prover_bind_any in Hl as (z & s7 & s8 & _ & Hl). exact (loop_run _ _ _ _ _ _ _ _ _ _ _ Hl).
  Qed.
End Epochs.
Lemma checked_carries l a : map bits_le_val (le_chunks l BLS_CAPACITY) = map zr_val a -> carries 252 l a.
Proof.
  unfold le_chunks, carries. change BLS_CAPACITY with 252%nat. generalize (chunks 252 l). intros ch. revert a.
  induction ch as [|c ch IH]; intros [|x a] H; try discriminate H; constructor.
  - cbn [map] in H. injection H as H _. rewrite <- H, bits_number_be_eq. unfold from_bits_be. rewrite <- rev_length. apply Z.mod_small, bits_le_val_bound.
  - apply IH. cbn [map] in H. injection H as _ H. exact H.
Qed.
Lemma items_crh_len items : Forall item_ok items -> length (items_crh items) = (384 * length items)%nat.
Proof.
  induction 1 as [|i items (_ & L & _) _ IH]; [reflexivity|]. cbn [items_crh flat_map length]. unfold items_crh in IH. rewrite app_length, IH, msg_bits_eq, bits_of_bytes_length, L. lia.
Qed.
Lemma xof_bits_len m : length (msg_bits (xof_bytes SIG_DOMAIN m)) = 512%nat.
Proof. rewrite msg_bits_eq, bits_of_bytes_length. destruct (xof_bytes_len SIG_DOMAIN m) as [-> _]; [rewrite sig_len; lia|reflexivity]. Qed.
Lemma items_xof_len items : length (items_xof items) = (512 * length items)%nat.
Proof.
  induction items as [|i items IH]; [reflexivity|]. cbn [items_xof flat_map length]. unfold items_xof in IH.
  etransitivity; [apply app_length|]. etransitivity; [exact (f_equal2 Nat.add (xof_bits_len (fst i ++ snd i)) IH)|]. lia.
Qed.
Definition count (n : nat) : nat := ((384 * n + 251) / 252 + (512 * n + 251) / 252)%nat.
Lemma count_lt n k : (n < k)%nat -> (count n < count k)%nat.
Proof.
  intros H. unfold count.
  assert (A : ((384 * n + 251) / 252 + 1 <= (384 * k + 251) / 252)%nat).
  { rewrite <- (Nat.div_add _ 1) by lia. apply Nat.div_le_mono; lia. }
  assert (B : ((512 * n + 251) / 252 <= (512 * k + 251) / 252)%nat) by (apply Nat.div_le_mono; lia).
  lia.
Qed.
Lemma count_inj n k : count n = count k -> n = k.
Proof. intros H. destruct (Nat.lt_trichotomy n k) as [L|[L|L]]; [apply count_lt in L; lia|exact L|apply count_lt in L; lia]. Qed.
Lemma expansions_len ms xs : Forall2 expansion ms xs -> length (flat_map msg_bits xs) = (512 * length ms)%nat.
Proof.
  induction 1 as [|m x ms xs H _ IH]; [reflexivity|]. cbn [flat_map length]. rewrite app_length, IH, msg_bits_eq, bits_of_bytes_length.
  destruct (expansion_len m x H) as [-> _]. lia.
Qed.
Lemma concat_len_384 {A} (shape : list (list A)) : Forall (fun o => length o = 384%nat) shape -> length (concat shape) = (384 * length shape)%nat.
Proof. induction 1 as [|o shape L _ IH]; [cbn; lia|]. cbn [concat length]. rewrite app_length, IH, L. lia. Qed.
Lemma empty_384 n : Forall (fun o => length o = 384%nat) (hash_to_bits_empty n).
Proof.
  unfold hash_to_bits_empty. assert (L : length (repeat (@None bool) 384) = 384%nat) by apply repeat_length.
  revert L. generalize (repeat (@None bool) 384). intros o L. induction n; constructor; assumption.
Qed.
Lemma flatn n a b : Forall (fun m : bytes => length m = n /\ is_bytes m = true) a -> Forall (fun m : bytes => length m = n /\ is_bytes m = true) b -> length a = length b ->
  flat_map msg_bits a = flat_map msg_bits b -> a = b.
Proof.
  intros F. revert b. induction F as [|m a [H B] _ IH]; intros [|m' b] F' L E; try discriminate L; [reflexivity|]. inversion F' as [|? ? [H' B'] F2]; subst. injection L as L.
  cbn [flat_map] in E. apply app_inj_len in E as [E1 E2]; [|rewrite !msg_bits_eq, !bits_of_bytes_length; lia]. f_equal; [apply msg_bits_inj; assumption|apply IH; assumption].
Qed.
Lemma items_crh_eq items : items_crh items = flat_map msg_bits (map snd items).
Proof. induction items as [|i items IH]; [reflexivity|]. cbn [items_crh flat_map map]. unfold items_crh in IH. rewrite IH. reflexivity. Qed.
Lemma items_xof_eq items : items_xof items = flat_map msg_bits (map (fun i => xof_bytes SIG_DOMAIN (fst i ++ snd i)) items).
Proof. induction items as [|i items IH]; [reflexivity|]. cbn [items_xof flat_map map]. unfold items_xof in IH. exact (f_equal2 (@app bool) eq_refl IH). Qed.
Lemma items_collide items shape inputs : Forall item_ok items -> Forall (fun o => length o = 384%nat) shape -> holds (hash_to_bits_circuit shape) inputs ->
  map zr_val inputs = map bits_le_val (le_chunks (items_crh items) BLS_CAPACITY ++ le_chunks (items_xof items) BLS_CAPACITY) -> Forall shifted_collision (map snd items).
Proof.
  intros F S384 H E. set (n := length shape). apply circuit_holds in H as (ms & FS & xs & a & b & X & -> & Ha & Hb).
  assert (Lm : length ms = n). { apply forall2_len in FS. symmetry. exact FS. }
  assert (Lf : length (flat_map msg_bits ms) = (384 * n)%nat).
  { rewrite (flat_len_shape _ _ FS). exact (concat_len_384 _ S384). }
  pose proof (expansions_len _ _ X) as Lx. rewrite Lm in Lx.
  pose proof (carries_len _ _ Ha) as La. pose proof (carries_len _ _ Hb) as Lb. rewrite Lf in La. rewrite Lx in Lb.
  assert (N : n = length items).
  { apply count_inj. unfold count. rewrite <- La, <- Lb. apply (f_equal (@length Z)) in E. rewrite !map_length, !app_length in E. unfold le_chunks in E. rewrite !map_length in E.
    rewrite !chunks_length, items_crh_len, items_xof_len in E by (try assumption; unfold BLS_CAPACITY; lia). rewrite E. unfold BLS_CAPACITY. f_equal; f_equal; lia. }
  rewrite !map_app in E. apply app_inj_len in E as [Ea Eb].
  2:{ rewrite !map_length. unfold le_chunks. rewrite map_length, chunks_length, items_crh_len by (try assumption; unfold BLS_CAPACITY; lia). rewrite La, N. unfold BLS_CAPACITY. f_equal. lia. }
  symmetry in Ea, Eb. apply checked_carries in Ea, Eb.
  apply (carries_determines (flat_map msg_bits ms) (items_crh items) a) in Ea; [|rewrite Lf, items_crh_len by assumption; congruence|exact Ha].
  apply (carries_determines (flat_map msg_bits xs) (items_xof items) b) in Eb; [|rewrite Lx, items_xof_len; congruence|exact Hb].
  assert (FM : Forall (fun m => length m = 48%nat /\ is_bytes m = true) ms).
  { clear - S384 FS. induction FS as [|o m shape ms [Lo B] FS IH]; constructor; inversion S384; subst; [split; [lia|exact B]|apply IH; assumption]. }
  assert (EM : ms = map snd items). { apply (flatn 48); [exact FM| | |]. { clear - F. induction F as [|i items (_ & L & B) _ IH]; constructor; auto. } { rewrite map_length. congruence. } rewrite Ea. apply items_crh_eq. }
  subst ms. clear - F X Eb Lx. assert (FX : Forall2 expansion (map snd items) (map (fun i => xof_bytes SIG_DOMAIN (fst i ++ snd i)) items)).
  { replace (map (fun i => xof_bytes SIG_DOMAIN (fst i ++ snd i)) items) with xs; [exact X|]. apply (flatn 64).
    - clear - X. induction X as [|m x ms xs H _ IH]; constructor; [apply (expansion_len m x H)|exact IH].
    - clear. induction items as [|i items IH]; constructor; [apply xof_bytes_len; rewrite sig_len; lia|exact IH].
    - rewrite map_length. apply forall2_len in X. rewrite map_length in X. symmetry. exact X.
    - rewrite Eb. apply items_xof_eq. }
  clear - F FX. revert FX. induction F as [|[pre d] items ((L8 & B8) & _) _ IH]; intros FX; cbn [map] in *; constructor.
  - inversion FX; subst. cbn [fst snd] in *. exists pre, (xof_bytes SIG_DOMAIN (pre ++ d)). split; [exact L8|]. split; [exact B8|]. split; [assumption|]. apply expansion_iff. reflexivity.
  - apply IH. inversion FX; subst. assumption.
Qed.

(** ** The messages of the prover *)
Definition mirror (d : bytes) : bytes := bytes_of_bits (rev (msg_bits d)).
Lemma mirror_ok d : length d = 48%nat -> mirrored d (mirror d).
Proof.
  intros L. unfold mirror, mirrored. destruct (bits_bytes (rev (msg_bits d))) as (A & B & C).
  { rewrite rev_length, msg_bits_eq, bits_of_bytes_length. unfold byte in *. rewrite L. reflexivity. }
  split; [exact C|]. rewrite msg_bits_eq. exact A.
Qed.
Lemma digest_bits d : length d = 48%nat -> bytes_le_to_bits_be d 384 = rev (msg_bits d).
Proof.
  intros L. rewrite msg_bits_eq. unfold bytes_le_to_bits_be, bits_of_bytes. f_equal. apply firstn_all2.
  rewrite flat_bits_length. unfold byte in *. lia.
Qed.
Section Messages.
  Context {E1 E2 : grp} (gen2 : E2) (coords_of : E2 -> coords) (pedersen : bytes -> result bytes).
  Implicit Types t : transition E1 E2.
  Lemma helper_message_ok t o : helper_message gen2 coords_of pedersen t = Ok o <->
    exists encoding extra d, encode_inner_to_bytes_cip22 coords_of gen2 (t_block t) = Ok (encoding, extra) /\ pedersen encoding = Ok d /\
      o = map Some (bytes_le_to_bits_be d 384).
  Proof.
    unfold helper_message. destruct (encode_inner_to_bytes_cip22 coords_of gen2 (t_block t)) as [[i x]| |]; cbn [unwrap rbind].
    2,3: split; [intros D; discriminate D|intros (a & b & c & D & _); discriminate D].
    change (crh (composite_hasher pedersen) [] i 0) with (pedersen i). destruct (pedersen i) as [d| |] eqn:P; cbn [unwrap rbind].
    - split; [intros H; apply ok_inj in H; subst o; exists i, x, d; auto|].
      intros (a & b & c & H & Pd & ->). apply ok_inj in H. injection H as <- <-. rewrite P in Pd. apply ok_inj in Pd. subst c. reflexivity.
    - split; [intros D; discriminate D|]. intros (a & b & c & H & Pd & _). apply ok_inj in H. injection H as <- <-. rewrite P in Pd. discriminate Pd.
    - split; [intros D; discriminate D|]. intros (a & b & c & H & Pd & _). apply ok_inj in H. injection H as <- <-. rewrite P in Pd. discriminate Pd.
  Qed.
  Lemma helper_message_never_errs t : (exists o, helper_message gen2 coords_of pedersen t = Ok o) \/ helper_message gen2 coords_of pedersen t = Panic.
  Proof.
    unfold helper_message. destruct (encode_inner_to_bytes_cip22 coords_of gen2 (t_block t)) as [[i x]| |]; cbn [unwrap rbind]; [|right; reflexivity|right; reflexivity].
    destruct (crh (composite_hasher pedersen) [] i 0) as [d| |]; cbn [unwrap rbind]; [left; eexists; reflexivity|right; reflexivity|right; reflexivity].
  Qed.
  Lemma instance_complete (ts : list (transition E1 E2)) shape : (forall m d, pedersen m = Ok d -> length d = 48%nat) -> helper_messages gen2 coords_of pedersen ts = Ok shape ->
    exists ds ms inputs a b xs, Forall2 (inner_digest gen2 coords_of pedersen) ts ds /\ Forall2 mirrored ds ms /\
      prover (hash_to_bits_circuit shape) = Val (inputs, true) /\ Forall2 expansion ms xs /\
      pack r 252 (flat_map msg_bits ms) = Some a /\ pack r 252 (flat_map msg_bits xs) = Some b /\ map zr_val inputs = a ++ b.
  Proof.
    intros HP H.
    assert (D : exists ds, Forall2 (inner_digest gen2 coords_of pedersen) ts ds /\ Forall (fun d => length d = 48%nat) ds /\ shape = map (fun d => map Some (bytes_le_to_bits_be d 384)) ds).
    { unfold helper_messages in H. revert shape H. induction ts as [|t ts IH]; intros shape H; cbn [mapM] in H.
      - apply ok_inj in H. subst shape. exists []. repeat split; constructor.
      - destruct (helper_message gen2 coords_of pedersen t) as [o| |] eqn:E; [|discriminate H|discriminate H]. cbn [rbind] in H.
        destruct (mapM (helper_message gen2 coords_of pedersen) ts) as [os| |]; [|discriminate H|discriminate H]. cbn [rbind] in H. apply ok_inj in H. subst shape.
        destruct (IH os eq_refl) as (ds & F & L & ->). apply helper_message_ok in E as (i & x & d & Ei & Ed & ->).
        exists (d :: ds). split; [constructor; [exists i, x; split; assumption|exact F]|]. split; [constructor; [exact (HP _ _ Ed)|exact L]|reflexivity]. }
    destruct D as (ds & F & L & ->). exists ds, (map mirror ds).
    assert (M : Forall2 mirrored ds (map mirror ds)) by (clear - L; induction L; constructor; [apply mirror_ok; assumption|assumption]).
    assert (S : map (fun d => map Some (bytes_le_to_bits_be d 384)) ds = map (fun m => map Some (msg_bits m)) (map mirror ds)).
    { clear - L. induction L as [|d ds L _ IH]; [reflexivity|]. cbn [map]. rewrite IH. destruct (mirror_ok d L) as [_ ->]. rewrite (digest_bits d L). reflexivity. }
    destruct (circuit_complete (map mirror ds)) as (inputs & a & b & P & A & (xs & X & B) & V).
    { clear - L. induction L; constructor; [apply mirror_ok; assumption|assumption]. }
    rewrite <- S in P. exists inputs, a, b, xs. auto 10.
  Qed.
  Lemma messages_384 (ts : list (transition E1 E2)) shape : (forall m d, pedersen m = Ok d -> length d = 48%nat) -> helper_messages gen2 coords_of pedersen ts = Ok shape ->
    Forall (fun o => length o = 384%nat) shape /\ length shape = length ts.
  Proof.
    intros HP H. unfold helper_messages in H. revert shape H. induction ts as [|t ts IH]; intros shape H; cbn [mapM] in H.
    - apply ok_inj in H. subst shape. repeat constructor.
    - destruct (helper_message gen2 coords_of pedersen t) as [o| |] eqn:E; [|discriminate H|discriminate H]. cbn [rbind] in H.
      destruct (mapM (helper_message gen2 coords_of pedersen) ts) as [os| |]; [|discriminate H|discriminate H]. cbn [rbind] in H. apply ok_inj in H. subst shape.
      destruct (IH os eq_refl) as [F L]. apply helper_message_ok in E as (i & x & d & Ei & Ed & ->).
      split; [|cbn [length]; congruence]. constructor; [|exact F]. rewrite map_length, digest_bits by exact (HP _ _ Ed).
      rewrite rev_length, msg_bits_eq, bits_of_bytes_length. pose proof (HP _ _ Ed) as Q. unfold byte in *. rewrite Q. reflexivity.
  Qed.
End Messages.
