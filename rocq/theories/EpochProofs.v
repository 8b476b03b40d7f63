(** Proofs about the epoch circuit. *)
From Coq Require Import Field.
From Verif Require Import Base Constants Group Field Curve BlsModel BitsModel BitsProofs EncodingModel EncodingSpec EncodingProofs Blake2 HasherModel HasherSpec HasherProofs PointModel
  HashCurveModel HashCurveSpec PointProofs HashCurveProofs CodecSpec Circuit CircuitFacts GadgetModel GadgetSpec CubeFacts GadgetProofs
  HashGadgetModel HashGadgetSpec HashGadgetProofs HashGadgetNative EpochCircuitModel EpochSpec EpochCircuitSpec.
Local Open Scope circ_scope.
Local Opaque p half.
Add Field Fqf : fq_field.

(** ** Bits *)
Lemma forall2_len {A B} (R : A -> B -> Prop) l m : Forall2 R l m -> length l = length m.
Proof. induction 1; cbn [length]; congruence. Qed.
Lemma fr_to_bits_low x n : (n <= 377)%nat -> fr_to_bits x n = low n x.
Proof.
  intros H. unfold fr_to_bits, to_bits_le, low. rewrite firstn_map. f_equal.
  rewrite <- (Nat.sub_add n 377 H), Nat.add_comm, seq_app, firstn_app, seq_length, Nat.sub_diag, firstn_O, app_nil_r.
  apply firstn_all2. rewrite seq_length. apply Nat.le_refl.
Qed.
Lemma low_length n x : length (low n x) = n.
Proof. unfold low. rewrite map_length. apply seq_length. Qed.
Lemma low_val n x : bits_le_val (low n x) = fqv x mod 2 ^ Z.of_nat n.
Proof. unfold low. apply testbits_val. pose proof (fqv_range x). lia. Qed.
Lemma low_eq n x y : low n x = low n y <-> fqv x mod 2 ^ Z.of_nat n = fqv y mod 2 ^ Z.of_nat n.
Proof.
  rewrite <- !low_val. split; [congruence|]. intros H. apply bits_le_val_inj; [rewrite !low_length; reflexivity|exact H].
Qed.
Lemma be_bits x : to_bits_be x = bytes_le_to_bits_be (le_bytes FQ_BYTES (fqv x)) MODULUS_BITS.
Proof.
  unfold to_bits_be, bytes_le_to_bits_be. f_equal. apply bits_le_val_inj.
  - rewrite to_bits_le_length, firstn_length, flat_bits_length, le_bytes_length. reflexivity.
  - rewrite to_bits_le_val, bits_le_val_firstn, flat_bits_val by apply le_bytes_is_bytes. rewrite le_bytes_val.
    pose proof (fqv_range x). assert (p < 2 ^ Z.of_nat MODULUS_BITS) by (vm_compute; reflexivity).
    assert (p < 256 ^ Z.of_nat FQ_BYTES) by (vm_compute; reflexivity). rewrite (Z.mod_small (fqv x)) by lia. rewrite Z.mod_small by lia. reflexivity.
Qed.
Lemma g2_bits_holds X Y b : holds (g2_to_bits X Y) b <-> encodes (X, Y) b.
Proof.
  unfold g2_to_bits, encodes. cbn [snd encode_coords]. rewrite !be_bits.
  set (a := bytes_le_to_bits_be (le_bytes FQ_BYTES (fqv (fst X))) MODULUS_BITS). set (c := bytes_le_to_bits_be (le_bytes FQ_BYTES (fqv (snd X))) MODULUS_BITS).
  assert (L : forall x, length (bytes_le_to_bits_be (le_bytes FQ_BYTES (fqv x)) MODULUS_BITS) = 377%nat).
  { intros x. rewrite <- be_bits. unfold to_bits_be. rewrite rev_length. apply to_bits_le_length. }
  assert (F : firstn 754 (a ++ c ++ [is_over_half Y]) = a ++ c).
  { rewrite app_assoc, firstn_app. rewrite app_length. unfold a at 2, c at 2. rewrite !L. change (754 - (377 + 377))%nat with 0%nat.
    rewrite firstn_O, app_nil_r. apply firstn_all2. rewrite app_length. unfold a, c. rewrite !L. apply Nat.le_refl. }
  rewrite F. split.
  - intros H. apply holds_bind in H as (s & Hs & H). cbn [holds] in H. subst b. apply g2_y_to_bit_holds in Hs. destruct Hs as [Hs|Hs].
    + left. do 3 f_equal. rewrite larger2_half in Hs. apply eq_iff_eq_true, Hs.
    + right. split; [exact Hs|]. exists s. rewrite app_assoc. reflexivity.
  - intros H. apply holds_bind. destruct H as [->|[U (s & ->)]].
    + exists (is_over_half Y). split; [|reflexivity]. apply g2_y_to_bit_holds. left. symmetry. apply larger2_half.
    + exists s. split; [apply g2_y_to_bit_holds; right; exact U|]. cbn [holds]. rewrite <- app_assoc. reflexivity.
Qed.
Lemma g2_bits_prover X Y : prover (g2_to_bits X Y) = Val (encode_coords (X, Y), true).
Proof.
  unfold g2_to_bits. apply (prover_bind_val _ _ (is_over_half Y)); [apply g2_y_to_bit_prover|]. cbn [prover encode_coords]. rewrite !be_bits. reflexivity.
Qed.
Lemma pack_u8_native bits : bits_be_to_bytes_le bits = Ok (map bits_le_val (pack_u8 bits)).
Proof.
  rewrite bits_be_to_bytes_le_ok. f_equal. unfold pack_u8, pack_bytes. rewrite map_map. apply map_ext. intros c.
  rewrite bits_le_val_app, bits_le_val_zeros. ring.
Qed.
Lemma pack_u8_var bits : Forall u8_var (pack_u8 bits).
Proof.
  unfold pack_u8. rewrite Forall_map. eapply Forall_impl; [|apply chunks_forall_len; lia]. intros c Hc. cbn beta in Hc.
  unfold u8_var. rewrite app_length, repeat_length. lia.
Qed.
Lemma new_u8_holds h l : holds (new_u8 h) l <-> u8_var l.
Proof.
  unfold new_u8, u8_var. rewrite holds_cmap. split.
  - intros H. apply forall2_len in H. rewrite <- H. apply seq_length.
  - intros H. do 9 (destruct l as [|? l]; [try discriminate H|]); [|discriminate H]. cbn [seq]. repeat constructor; apply holds_new_bool.
Qed.
Lemma new_u8_prover c : prover (new_u8 (Val c)) = Val (byte_bits 8 (c mod 256), true).
Proof.
  unfold new_u8. rewrite (prover_cmap _ (fun i => Z.testbit (c mod 256) (Z.of_nat i))); [|intros i _; apply prover_new_bool].
  rewrite byte_bits_testbit. reflexivity.
Qed.
Lemma constrain_bool_holds l b : holds (constrain_bool l) b <-> length b = length l.
Proof.
  unfold constrain_bool. rewrite holds_cmap. split.
  - intros H. apply forall2_len in H. congruence.
  - revert b. induction l as [|x l IH]; intros [|y b] L; try discriminate L; constructor; [apply holds_new_bool|]. apply IH. injection L as L. exact L.
Qed.
Lemma constrain_bool_prover b : prover (constrain_bool (map Some b)) = Val (b, true).
Proof.
  unfold constrain_bool. induction b as [|x b IH]; [reflexivity|]. cbn [map cmap]. apply (prover_bind_val _ _ x); [apply prover_new_bool|].
  apply (prover_bind_val _ _ b); [exact IH|reflexivity].
Qed.
Lemma cond_equal_holds a b (cond : bool) u : holds (conditional_enforce_equal a b cond) u <-> (cond = true -> a = b).
Proof.
  unfold conditional_enforce_equal. rewrite holds_enforce, qeqb_spec. destruct cond; cbn [bfq].
  - split.
    + intros H _. destruct (fq_integral _ _ H) as [X|X]; [|exfalso; exact (q1_nz X)]. transitivity (qadd (qsub a b) b); [ring|]. rewrite X. ring.
    + intros H. rewrite (H eq_refl). ring.
  - split; [discriminate|]. intros _. ring.
Qed.
Lemma cond_equal_prover a b (cond : bool) : (cond = true -> a = b) -> prover (conditional_enforce_equal a b cond) = Val (tt, true).
Proof.
  intros H. unfold conditional_enforce_equal. rewrite prover_enforce. f_equal. f_equal. apply qeqb_spec.
  destruct cond; cbn [bfq]; [rewrite (H eq_refl)|]; ring.
Qed.
Lemma eq_zero_bit x z : holds (is_eq_zero (Var x)) z <-> z = qeqb x q0.
Proof.
  rewrite is_eq_zero_holds. cbn [value]. rewrite <- qeqb_spec. split; [apply eq_iff_eq_true|intros ->; reflexivity].
Qed.

Section Epochs.
  Context {E1 E2 GT : grp} (e : E1 -> E2 -> GT) (gen1 : E1) (gen2 : E2).
  Context (of1 : apoint fq -> E1) (of2 : apoint fq2 -> E2) (to1 : E1 -> apoint fq) (to2 : E2 -> apoint fq2).
  Context (sqrt : fq -> option fq) (ped : bytes -> option fq) (compat pin debug : bool).
  Context {HP : Type} (helper_verify : HP -> list (list bool) -> bool).
  Notation htg := (HashGadgetModel.hash_to_group of1 sqrt compat pin).
  Notation ehtg := (enforce_hash_to_group of1 sqrt ped compat pin).
  Notation to_bits := (to_bits of2 to2 pin).
  Notation constrain_update := (constrain_update gen2 of1 of2 to2 sqrt ped compat pin debug).
  Notation epochs_loop := (epochs_loop gen1 gen2 of1 of2 to2 sqrt ped compat pin debug).
  Notation circuit := (generate_constraints e gen1 gen2 of1 of2 to1 to2 sqrt ped compat pin debug helper_verify).

  (** what the constraints say about one key and one hash *)
  Definition opensP (P : E2) (bits : list bool) : Prop :=
    exists X Y W, g2_valid pin (X, Y, W) = true /\ encodes (X, Y) bits /\ P = of2 (affine2 (X, Y, W)).
  Definition hashP (constrain : bool) (h : header E2) (out : E1 * list bool * list bool) : Prop :=
    exists counter, u8_var counter /\ holds (ehtg counter (pack_u8 (signed_bits h)) (pack_u8 (extra_bits h)) constrain) out.
  Definition hashesP (constrain : bool) (h : header E2) (H : E1) : Prop := exists crh xof, hashP constrain h (H, crh, xof).
  Definition vars_of (h : header E2) : data_vars :=
    mk_vars (signed_bits h) (extra_bits h) (first_bits h) (closing_bits h) (h_index h) (h_entropy h) (h_parent h) (h_max h) (map fst (h_keys h)).
  Definition cm (c : carried) : committee E2 := mk_committee (c_keys c) (c_index c) (c_entropy c) (c_max c).

  Lemma key_var_holds k P b : holds (key_var of2 to2 pin k) (P, b) <-> opensP P b.
  Proof.
    unfold key_var, opensP. split.
    - intros H. apply holds_bind in H as ([[X Y] W] & Ha & H). apply alloc_g2_holds in Ha. apply holds_bind in H as (b' & Hb & H).
      cbn [holds] in H. injection H as <- ->. apply g2_bits_holds in Hb. exists X, Y, W. auto.
    - intros (X & Y & W & Ha & Hb & ->). apply holds_bind. exists (X, Y, W). split; [apply alloc_g2_holds, Ha|].
      apply holds_bind. exists b. split; [apply g2_bits_holds, Hb|reflexivity].
  Qed.
  Lemma keys_holds ks out : holds (cmap (key_var of2 to2 pin) ks) out <-> length out = length ks /\ Forall (fun k => opensP (fst k) (snd k)) out.
  Proof.
    rewrite holds_cmap. split.
    - intros H. split; [symmetry; exact (forall2_len _ _ _ H)|]. induction H as [|k [P b] ks out H _ IH]; constructor; [apply (key_var_holds k), H|exact IH].
    - intros [L F]. revert ks L. induction F as [|[P b] out H _ IH]; intros [|k ks] L; try discriminate L; constructor; [apply key_var_holds, H|].
      apply IH. injection L as L. exact L.
  Qed.
  Lemma to_bits_holds d v : holds (to_bits d) v <-> exists h, well_formed opensP (length (ed_keys d)) h /\ v = vars_of h.
  Proof.
    unfold EpochCircuitModel.to_bits. split.
    - intros H. apply holds_bind in H as (i & _ & H). apply holds_bind in H as (r & _ & H). apply holds_bind in H as (m & _ & H).
      apply holds_bind in H as (en & _ & H). apply holds_bind in H as (pa & _ & H). apply holds_bind in H as (ks & Hk & H). cbn [holds] in H.
      apply keys_holds in Hk. rewrite !fr_to_bits_low in H by (unfold ENTROPY_BYTES; lia). exists (mk_header i r m en pa ks). split; [exact Hk|]. rewrite <- H. reflexivity.
    - intros ([i r m en pa ks] & Hk & ->). unfold well_formed in Hk. cbn [h_keys] in Hk.
      do 3 (apply holds_bind; eexists; split; [apply holds_witness|]). do 2 (apply holds_bind; eexists; split; [unfold bytes_to_fr; apply holds_witness|]).
      apply holds_bind. exists ks. split; [apply keys_holds, Hk|]. cbn [holds]. rewrite !fr_to_bits_low by (unfold ENTROPY_BYTES; lia). reflexivity.
  Qed.
  Lemma next_epoch_holds prev i u : holds (enforce_next_epoch prev i) u <-> (i <> q0 -> i = qadd prev q1).
  Proof.
    unfold enforce_next_epoch. split.
    - intros H N. apply holds_bind in H as (z & Hz & H). apply eq_zero_bit in Hz. apply (proj1 (cond_equal_holds _ _ _ _) H).
      subst z. destruct (qeqb i q0) eqn:E; [apply qeqb_spec in E; contradiction|reflexivity].
    - intros H. apply holds_bind. exists (qeqb i q0). split; [apply eq_zero_bit; reflexivity|]. apply cond_equal_holds.
      intros N. apply H. intros ->. assert (qeqb q0 q0 = true) as X by (apply qeqb_spec; reflexivity). rewrite X in N. discriminate.
  Qed.
  Lemma hash_bits_holds h constrain out :
    holds (hash_bits_to_g1 of1 sqrt ped compat pin (signed_bits h) (extra_bits h) constrain) out <-> hashP constrain h out.
  Proof.
    unfold hash_bits_to_g1, hashP. split.
    - intros H. apply holds_bind in H as (c & Hc & H). apply new_u8_holds in Hc. exists c. auto.
    - intros (c & Hc & H). apply holds_bind. exists c. split; [apply new_u8_holds, Hc|exact H].
  Qed.
  Lemma nz_bit i : negb (qeqb i q0) = true <-> i <> q0.
  Proof. rewrite negb_true_iff, <- not_true_iff_false, qeqb_spec. reflexivity. Qed.

  Lemma update_holds u c ebit n constrain v out apk : Z.of_nat n < p -> length (ed_keys (su_data u)) = n -> length (su_bitmap u) = n -> length (c_keys c) = n ->
    holds (constrain_update u c ebit (Z.of_nat n) constrain) (v, out, apk) <->
    exists h bitmap signing, well_formed opensP n h /\ v = vars_of h /\ (h_index h <> q0 -> h_index h = qadd (c_index c) q1) /\
      (h_index h <> q0 -> ebit = true -> h_parent h = c_entropy c) /\ hashP constrain h out /\ quorum gen2 (cm c) bitmap signing /\ apk = sum signing.
  Proof.
    intros Hn Lk Lb Lc. unfold EpochCircuitModel.constrain_update. rewrite Lk, Z.eqb_refl. cbn [negb]. unfold constrain_data. split.
    - intros H. apply holds_bind in H as ([v' [[H' crh] xof]] & Hd & H). apply holds_bind in Hd as (v'' & Hv & Hd). apply to_bits_holds in Hv as (h & Hw & ->).
      apply holds_bind in Hd as (u1 & Hi & Hd). pose proof (proj1 (next_epoch_holds _ _ _) Hi) as Hi'. clear Hi. rename Hi' into Hi. apply holds_bind in Hd as (o & Ho & Hd). cbn [holds] in Hd.
      apply (hash_bits_holds h) in Ho. injection Hd as <- ->.
      apply holds_bind in H as (z & Hz & H). apply eq_zero_bit in Hz. subst z. apply holds_bind in H as (u2 & He & H). pose proof (proj1 (cond_equal_holds _ _ _ _) He) as He'. clear He. rename He' into He.
      apply holds_bind in H as (bitmap & Hb & H). apply constrain_bool_holds in Hb. apply holds_bind in H as ([h' apk'] & Hq & H).
      unfold enforce_bitmap in Hq. apply holds_bind in Hq as (u3 & Hm & Hq). destruct u3. apply bitmap_holds in Hm; [|rewrite Hb, Lb; exact Hn].
      apply holds_bind in Hq as (a & Ha & Hq). cbn [holds] in Hq. injection Hq as <- <-. cbn [holds] in H. injection H as <- <- <-.
      apply aggregated_holds in Ha as (l & Hl & Hpad & ->). rewrite Lk in Hw. exists h, bitmap, l. split; [exact Hw|]. split; [reflexivity|]. split; [exact Hi|].
      split. { intros N E. symmetry. apply He. cbn [v_index vars_of]. rewrite E, andb_true_r. apply nz_bit, N. }
      split; [exact Ho|]. split; [|reflexivity]. destruct Hm. repeat split; try assumption; apply H0.
    - intros (h & bitmap & l & Hw & -> & Hi & He & Ho & (Hne & Hl & Hpad & Hm) & ->). destruct out as [[H' crh] xof].
      apply holds_bind. exists (vars_of h, (H', crh, xof)). split.
      + apply holds_bind. exists (vars_of h). split; [apply to_bits_holds; exists h; rewrite Lk; auto|]. apply holds_bind. exists tt. split; [apply next_epoch_holds, Hi|].
        apply holds_bind. exists (H', crh, xof). split; [apply (hash_bits_holds h), Ho|reflexivity].
      + apply holds_bind. exists (qeqb (h_index h) q0). split; [apply eq_zero_bit; reflexivity|]. apply holds_bind. exists tt. split.
        { apply cond_equal_holds. intros X. apply andb_true_iff in X as [X1 X2]. apply nz_bit in X1. symmetry. auto. }
        pose proof (signers_length _ _ _ Hl) as Ll. cbn [m_keys cm] in Ll.
        apply holds_bind. exists bitmap. split; [apply constrain_bool_holds; congruence|].
        apply holds_bind. exists (H', sum l). split; [|reflexivity]. unfold enforce_bitmap. apply holds_bind. exists tt. split.
        { apply bitmap_holds; [rewrite Ll, Lc; exact Hn|]. split; [exact Hne|exact Hm]. }
        apply holds_bind. exists (sum l). split; [|reflexivity]. apply aggregated_holds. exists l. auto.
  Qed.

  Lemma all_keys_sum (keys : list E2) a : holds (enforce_aggregated_all_pubkeys keys) a <-> a = sum keys.
  Proof. unfold enforce_aggregated_all_pubkeys. cbn [holds]. rewrite <- sum_gsum. unfold gsum. split; congruence. Qed.
  Definition ends (h : header E2) (keys : list E2) (last : list bool) : Prop :=
    h_index h <> q0 /\ exists x y bits, to2 (sum keys) = Some (x, y) /\ encodes (x, y) bits /\ last = closing_bits h ++ bits.
  Lemma last_bits_holds h keys out :
    holds (last_bits to2 (vars_of h) keys (negb (qeqb (h_index h) q0))) out <-> ends h keys out.
  Proof.
    unfold last_bits, ends. split.
    - intros H. apply holds_bind in H as (a & Ha & H). apply all_keys_sum in Ha. subst a.
      apply holds_bind in H as (u0 & H0 & H). apply holds_enforce in H0. destruct (to2 (sum keys)) as [[x y]|]; [|discriminate H0].
      + apply holds_bind in H as (b & Hb & H). apply g2_bits_holds in Hb. apply holds_bind in H as (u & Hu & H). apply enforce_equal_holds in Hu. apply nz_bit in Hu.
        cbn [holds] in H. split; [exact Hu|]. exists x, y, b. split; [reflexivity|]. split; [exact Hb|]. symmetry. exact H.
    - intros (N & x & y & b & E & Hb & ->). apply holds_bind. exists (sum keys). split; [apply all_keys_sum; reflexivity|]. rewrite E.
      apply holds_bind. exists tt. split; [apply holds_enforce; reflexivity|]. apply holds_bind. exists b. split; [apply g2_bits_holds, Hb|]. apply holds_bind. exists tt. split; [apply enforce_equal_holds, nz_bit, N|reflexivity].
  Qed.

  (** the last header and the committee it establishes determine the last bits *)
  Definition closed (headers : list (header E2)) (c : committee E2) (last : list bool) : Prop :=
    match headers with
    | [] => last = []
    | _ => exists pre h, headers = pre ++ [h] /\ ends h (m_keys c) last
    end.
  Notation chainP := (chain gen1 gen2 opensP).

  Lemma select_true {A} (l l' : list A) : length l = length l' -> map (fun '(a, _) => a) (combine l l') = l.
  Proof. revert l'. induction l as [|a l IH]; intros [|b l'] L; try discriminate L; [reflexivity|]. cbn [combine map]. f_equal. apply IH. injection L as L. exact L. Qed.
  Lemma select_false {A} (l l' : list A) : length l = length l' -> map (fun '(_, b) => b) (combine l l') = l'.
  Proof. revert l'. induction l as [|a l IH]; intros [|b l'] L; try discriminate L; [reflexivity|]. cbn [combine map]. f_equal. apply IH. injection L as L. exact L. Qed.
  Definition next (h : header E2) (c : carried) : carried :=
    if negb (qeqb (h_index h) q0) then mk_carried (map fst (h_keys h)) (h_index h) (h_entropy h) (h_max h) else c.
  Lemma next_eq h c : length (h_keys h) = length (c_keys c) ->
    let b := negb (qeqb (h_index h) q0) in
    mk_carried (map (fun '(new, old) => if b then new else old) (combine (map fst (h_keys h)) (c_keys c)))
      (if b then h_index h else c_index c) (if b then h_entropy h else c_entropy c) (if b then h_max h else c_max c) = next h c.
  Proof.
    intros L. cbv zeta. unfold next. destruct (negb _).
    - f_equal. apply select_true. rewrite map_length. exact L.
    - rewrite select_false by (rewrite map_length; exact L). destruct c. reflexivity.
  Qed.
  Lemma next_cm h c : cm (next h c) = if negb (qeqb (h_index h) q0) then committee_of h else cm c.
  Proof. unfold next. destruct (negb _); reflexivity. Qed.
  Lemma next_len n h c : well_formed opensP n h -> length (c_keys c) = n -> length (c_keys (next h c)) = n.
  Proof. intros [L _] Lc. unfold next. destruct (negb _); [|exact Lc]. cbn [c_keys]. rewrite map_length. exact L. Qed.

  Lemma chain_length hashes linked n c hs pairs c' : chainP hashes linked n c hs pairs c' -> length pairs = length hs.
  Proof. induction 1; cbn [length]; congruence. Qed.
  Lemma chain_weaken hashes (linked linked' : Prop) n c hs pairs c' : (linked' -> linked) ->
    chainP hashes linked n c hs pairs c' -> chainP hashes linked' n c hs pairs c'.
  Proof.
    intros L H. induction H; [constructor|eapply chain_real; eauto|eapply chain_dummy; eauto].
  Qed.
  (** the state after a chain ending with a real header *)
  Lemma chain_last hashes linked n c pre h pairs c' : chainP hashes linked n c (pre ++ [h]) pairs c' -> h_index h <> q0 -> c' = committee_of h.
  Proof.
    remember (pre ++ [h]) as hs eqn:E. intros H. revert pre E.
    induction H as [c|c h0 bm l H hs pairs c' Hw N Hi Hl Hq Hs Hh Hc IH|c h0 bm l H hs pairs c' Hw Z Hq Hh Hc IH]; intros pre E N'.
    - destruct pre; discriminate E.
    - destruct pre as [|h1 pre]; injection E as E1' E2'; [|subst; apply (IH pre eq_refl N')]. subst. inversion Hc. reflexivity.
    - destruct pre as [|h1 pre]; injection E as E1' E2'; [|subst; apply (IH pre eq_refl N')]. subst. contradiction.
  Qed.

  Lemma loop_holds epochs n constrain ebit : Z.of_nat n < p -> gen2 <> gz -> Forall (shape n) epochs -> forall c last apks hs,
    length (c_keys c) = n ->
    (exists crh xof, holds (epochs_loop epochs c ebit (Z.of_nat n) constrain) (last, crh, xof, apks, hs)) <->
    exists headers pairs c', length headers = length epochs /\ chainP (hashesP constrain) (ebit = true) n (cm c) headers pairs c' /\
      apks = map snd pairs /\ hs = map fst pairs /\ closed headers c' last.
  Proof.
    intros Hn Hg Hs. induction Hs as [|u rest [S1 S2] _ IH]; intros c last apks hs Lc.
    - cbn [EpochCircuitModel.epochs_loop holds]. split.
      + intros (crh & xof & H). injection H as <- <- <- <- <-. exists [], [], (cm c). repeat split. constructor.
      + intros (headers & pairs & c' & L & Hc & -> & -> & Hl). destruct headers; [|discriminate L]. inversion Hc; subst. cbn [closed] in Hl. subst last. exists [], []. reflexivity.
    - cbn [EpochCircuitModel.epochs_loop].
      assert (CL : forall headers h c' last0, closed (h :: headers) c' last0 <->
        match headers with [] => ends h (m_keys c') last0 | _ => closed headers c' last0 end).
      { intros headers h c' last0. cbn [closed]. destruct headers as [|h1 headers]; cbn [closed].
        - split; [intros (pre & h' & E & H)|intros H; exists [], h; auto]. destruct pre as [|? [|? ?]]; try discriminate E. injection E as <-. exact H.
        - split; intros (pre & h' & E & H).
          + destruct pre as [|h0 pre]; [discriminate E|]. injection E as _ E. exists pre, h'. auto.
          + exists (h :: pre), h'. rewrite E. auto. }
      split.
      + intros (crh & xof & H). apply holds_bind in H as ([[v [[H' crh0] xof0]] agg] & Hu & H).
        apply update_holds in Hu; try assumption. destruct Hu as (h & bm & l & Hw & -> & Hi & He & Hh & Hq & ->).
        apply holds_bind in H as (z & Hz & H). apply eq_zero_bit in Hz. subst z. cbn [v_index v_entropy v_max v_keys vars_of] in H.
        rewrite next_eq in H by (rewrite Lc; apply Hw).
        apply holds_bind in H as (apk & Ha & H). apply prepare_g2_holds in Ha as [Hnz ->].
        apply holds_bind in H as (h1 & Hp & H). cbn [prepare_g1 holds] in Hp. subst h1.
        apply holds_bind in H as (lb & Hlb & H). apply holds_bind in H as ([[[[last' crhs] xofs] apks'] hs'] & Hrest & H).
        cbn [holds] in H. injection H as <- <- <- <- <-.
        destruct (proj1 (IH (next h c) last' apks' hs' (next_len _ _ _ Hw Lc))) as (headers & pairs & c' & L & Hc & -> & -> & Hl); [exists crhs, xofs; exact Hrest|].
        exists (h :: headers), (((if negb (qeqb (h_index h) q0) then H' else gen1), (if negb (qeqb (h_index h) q0) then sum l else gen2)) :: pairs), c'.
        split; [cbn [length]; rewrite L; reflexivity|]. split; [|split; [reflexivity|split; [reflexivity|]]].
        * rewrite next_cm in Hc. destruct (negb (qeqb (h_index h) q0)) eqn:B.
          -- apply nz_bit in B. eapply chain_real; eauto. exists crh0, xof0. exact Hh.
          -- apply negb_false_iff, qeqb_spec in B. eapply chain_dummy; eauto. exists crh0, xof0. exact Hh.
        * apply CL. destruct rest as [|u' rest].
          -- destruct headers; [|discriminate L]. inversion Hc; subst. apply last_bits_holds in Hlb. exact Hlb.
          -- destruct headers; [discriminate L|]. exact Hl.
      + intros (headers & pairs & c' & L & Hc & -> & -> & Hl). destruct headers as [|h headers]; [discriminate L|]. injection L as L.
        apply CL in Hl.
        assert (D : exists H' crh0 xof0 bm l pairs', well_formed opensP n h /\ (h_index h <> q0 -> h_index h = qadd (c_index c) q1) /\
          (h_index h <> q0 -> ebit = true -> h_parent h = c_entropy c) /\ hashP constrain h (H', crh0, xof0) /\ quorum gen2 (cm c) bm l /\
          (h_index h <> q0 -> sum l <> gz) /\ chainP (hashesP constrain) (ebit = true) n (cm (next h c)) headers pairs' c' /\
          pairs = ((if negb (qeqb (h_index h) q0) then H' else gen1), (if negb (qeqb (h_index h) q0) then sum l else gen2)) :: pairs').
        { rewrite next_cm. inversion Hc; subst.
          - match goal with X : hashesP _ _ _ |- _ => destruct X as (crh0 & xof0 & Hh) end. assert (B : negb (qeqb (h_index h) q0) = true) by (apply nz_bit; assumption).
            rewrite B. do 6 eexists. repeat (split; [eassumption || (intros; assumption) || auto|]). reflexivity.
          - match goal with X : hashesP _ _ _ |- _ => destruct X as (crh0 & xof0 & Hh) end. assert (B : negb (qeqb (h_index h) q0) = false) by (apply negb_false_iff, qeqb_spec; assumption).
            rewrite B. do 6 eexists. split; [eassumption|]. split; [intros; contradiction|]. split; [intros; contradiction|]. split; [eassumption|].
            split; [eassumption|]. split; [intros; contradiction|]. split; [eassumption|reflexivity]. }
        destruct D as (H' & crh0 & xof0 & bm & l & pairs' & Hw & Hi & He & Hh & Hq & Hz & Hc' & ->).
        destruct (proj2 (IH (next h c) (match headers with [] => [] | _ => last end) (map snd pairs') (map fst pairs') (next_len _ _ _ Hw Lc))) as (crhs & xofs & Hrest).
        { exists headers, pairs', c'. split; [exact L|]. split; [exact Hc'|]. split; [reflexivity|]. split; [reflexivity|]. destruct headers; [reflexivity|exact Hl]. }
        exists (crh0 ++ crhs), (xof0 ++ xofs). apply holds_bind. exists (vars_of h, (H', crh0, xof0), sum l). split.
        { apply update_holds; try assumption. exists h, bm, l. auto 10. }
        apply holds_bind. exists (qeqb (h_index h) q0). split; [apply eq_zero_bit; reflexivity|]. cbn [v_index v_entropy v_max v_keys vars_of].
        rewrite next_eq by (rewrite Lc; apply Hw).
        apply holds_bind. eexists. split; [apply prepare_g2_holds; split; [|reflexivity]|].
        { destruct (negb _) eqn:B; [apply Hz, nz_bit, B|exact Hg]. }
        apply holds_bind. eexists. split; [reflexivity|]. apply holds_bind. exists (match rest with [] => last | _ => [] end). split.
        { destruct rest; [|reflexivity]. destruct headers; [|discriminate L]. apply last_bits_holds. inversion Hc'; subst. exact Hl. }
        apply holds_bind. eexists. split; [exact Hrest|]. cbn [holds map fst snd].
        destruct rest, headers; try discriminate L; reflexivity.
  Qed.
End Epochs.
