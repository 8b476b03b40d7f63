From Verif Require Import Base BlsModel BatchProofs BitsModel.

(** ** chunks *)
Lemma chunks_fuel_ge {A} n (l : list A) f f' : (0 < n)%nat -> (length l <= f)%nat -> (length l <= f')%nat ->
  chunks_fuel f n l = chunks_fuel f' n l.
Proof.
  intros Hn. revert l f'. induction f as [|f IH]; intros l f' H H'.
  - destruct l; [|cbn in H; lia]. destruct f'; reflexivity.
  - destruct l as [|x l]; [destruct f'; reflexivity|]. destruct f' as [|f']; [cbn in H'; lia|].
    cbn [chunks_fuel]. f_equal. apply IH; rewrite skipn_length; cbn [length] in *; lia.
Qed.
Lemma chunks_nil {A} n : chunks n ([] : list A) = []. Proof. reflexivity. Qed.
Lemma chunks_cons {A} n (l : list A) : (0 < n)%nat -> l <> [] ->
  chunks n l = firstn n l :: chunks n (skipn n l).
Proof.
  intros Hn Hl. unfold chunks. destruct l as [|x l]; [congruence|]. cbn [length chunks_fuel]. f_equal.
  apply chunks_fuel_ge; rewrite ?skipn_length; cbn [length]; lia.
Qed.
Lemma chunks_ind {A} n (P : list A -> Prop) : (0 < n)%nat -> P [] ->
  (forall l, l <> [] -> P (skipn n l) -> P l) -> forall l, P l.
Proof.
  intros Hn H0 HS l. remember (length l) as m eqn:E. revert l E.
  induction m as [m IH] using lt_wf_ind. intros l ->. destruct l as [|x l]; [assumption|].
  apply HS; [discriminate|]. eapply IH; [|reflexivity]. rewrite skipn_length. cbn [length]. lia.
Qed.
Lemma concat_chunks {A} n (l : list A) : (0 < n)%nat -> concat (chunks n l) = l.
Proof.
  intros Hn. revert l. apply (chunks_ind n); [assumption|reflexivity|]. intros l Hl IH.
  rewrite chunks_cons by assumption. cbn [concat]. rewrite IH. apply firstn_skipn.
Qed.
Lemma chunks_forall_len {A} n (l : list A) : (0 < n)%nat -> Forall (fun c => (length c <= n)%nat) (chunks n l).
Proof.
  intros Hn. revert l. apply (chunks_ind n); [assumption|constructor|]. intros l Hl IH.
  rewrite chunks_cons by assumption. constructor; [apply firstn_le_length|assumption].
Qed.
Lemma chunks_length {A} n (l : list A) : (0 < n)%nat -> length (chunks n l) = ((length l + n - 1) / n)%nat.
Proof.
  intros Hn. revert l. apply (chunks_ind n); [assumption| |].
  - cbn. symmetry. apply Nat.div_small. lia.
  - intros l Hl IH. rewrite chunks_cons by assumption. cbn [length]. rewrite IH, skipn_length.
    assert (length l <> 0)%nat by (destruct l; [congruence|discriminate]).
    destruct (Nat.le_gt_cases (length l) n) as [H1|H1].
    + replace (length l - n)%nat with 0%nat by lia. rewrite (Nat.div_small (0 + n - 1)) by lia.
      apply (Nat.div_unique _ _ _ (length l - 1)); lia.
    + replace (length l + n - 1)%nat with ((length l - n + n - 1) + 1 * n)%nat by lia.
      rewrite Nat.div_add by lia. lia.
Qed.
Lemma chunks_shape {A B} n (l : list A) (l' : list B) : (0 < n)%nat -> length l = length l' ->
  map (@length A) (chunks n l) = map (@length B) (chunks n l').
Proof.
  intros Hn. revert l'. pattern l. revert l. apply (chunks_ind n); [assumption| |].
  - intros [|y l'] E; [reflexivity|discriminate].
  - intros l Hl IH l' E. assert (Hl' : l' <> []) by (destruct l; [congruence|destruct l'; [discriminate|discriminate]]).
    rewrite (chunks_cons n l), (chunks_cons n l') by assumption. cbn [map]. rewrite !firstn_length, E. f_equal. apply IH.
    rewrite !skipn_length, E. reflexivity.
Qed.

(** ** values *)
Lemma bits_le_val_bound l : 0 <= bits_le_val l < 2 ^ Z.of_nat (length l).
Proof.
  induction l as [|b l IH]; cbn [bits_le_val length]; [cbn; lia|].
  rewrite Nat2Z.inj_succ, Z.pow_succ_r by lia. destruct b; lia.
Qed.
Lemma bits_le_val_app l l' : bits_le_val (l ++ l') = bits_le_val l + 2 ^ Z.of_nat (length l) * bits_le_val l'.
Proof.
  induction l as [|b l IH]; cbn [bits_le_val length app]; [cbn [Z.of_nat]; rewrite Z.pow_0_r; lia|].
  rewrite IH, Nat2Z.inj_succ, Z.pow_succ_r by lia. ring.
Qed.
Lemma bits_le_val_inj l l' : length l = length l' -> bits_le_val l = bits_le_val l' -> l = l'.
Proof.
  revert l'. induction l as [|b l IH]; intros [|b' l'] E V; try discriminate; [reflexivity|].
  cbn [bits_le_val] in V. assert (b = b') by (destruct b, b'; try reflexivity; lia). subst.
  f_equal. apply IH; [cbn in E; lia|destruct b'; lia].
Qed.
Lemma bits_le_val_zeros n : bits_le_val (repeat false n) = 0.
Proof. induction n as [|n IH]; [reflexivity|]. cbn [repeat bits_le_val]. rewrite IH. reflexivity. Qed.
Lemma from_bits_be_bound l : 0 <= from_bits_be l < 2 ^ Z.of_nat (length l).
Proof. unfold from_bits_be. rewrite <- (rev_length l). apply bits_le_val_bound. Qed.
Lemma from_bits_be_inj l l' : length l = length l' -> from_bits_be l = from_bits_be l' -> l = l'.
Proof.
  unfold from_bits_be. intros E V. apply bits_le_val_inj in V; [|rewrite !rev_length; assumption].
  rewrite <- (rev_involutive l), V. apply rev_involutive.
Qed.

(** ** bits to bytes *)
Lemma chunk_loop_ok chunk k byte : (length chunk + k <= 8)%nat -> 0 <= byte < 2 ^ Z.of_nat k ->
  chunk_loop chunk byte (2 ^ Z.of_nat k) = Ok (byte + 2 ^ Z.of_nat k * bits_le_val chunk).
Proof.
  revert k byte. induction chunk as [|c chunk IH]; intros k byte Hk Hb; cbn [chunk_loop bits_le_val].
  - f_equal. lia.
  - cbn [length] in Hk. assert (Hp : 2 * 2 ^ Z.of_nat k = 2 ^ Z.of_nat (S k)) by (rewrite Nat2Z.inj_succ, Z.pow_succ_r; lia).
    assert (H128 : 2 ^ Z.of_nat (S k) <= 256) by (change 256 with (2 ^ 8); apply Z.pow_le_mono_r; lia).
    assert (Hm : (2 ^ Z.of_nat k * (if c then 1 else 0)) mod 256 = 2 ^ Z.of_nat k * (if c then 1 else 0)).
    { apply Z.mod_small. destruct c; lia. }
    rewrite Hm. assert (Hlt : (byte + 2 ^ Z.of_nat k * (if c then 1 else 0) <? 256) = true).
    { apply Z.ltb_lt. destruct c; lia. }
    rewrite Hlt. rewrite Z.mul_comm, Hp in *. rewrite IH; [|lia|destruct c; lia].
    f_equal. rewrite <- Hp. destruct c; ring.
Qed.
Lemma mapM_ok {A B} (f : A -> result B) (g : A -> B) l : Forall (fun x => f x = Ok (g x)) l -> mapM f l = Ok (map g l).
Proof. induction 1 as [|x l H F IH]; [reflexivity|]. cbn [mapM map]. rewrite H, IH. reflexivity. Qed.

Definition pack_bytes (bits : list bool) : bytes := map bits_le_val (chunks 8 bits).

Lemma bits_be_to_bytes_le_ok bits : bits_be_to_bytes_le bits = Ok (pack_bytes (rev bits)).
Proof.
  unfold bits_be_to_bytes_le, pack_bytes. apply mapM_ok.
  eapply Forall_impl; [|apply chunks_forall_len; lia]. intros c Hc. cbn beta in Hc.
  change 1 with (2 ^ Z.of_nat 0). rewrite chunk_loop_ok; [|lia|cbn; lia]. cbn [Z.of_nat]. rewrite Z.pow_0_r. f_equal; lia.
Qed.
Lemma bits_le_to_bytes_le_ok bits : bits_le_to_bytes_le bits = Ok (pack_bytes bits).
Proof. unfold bits_le_to_bytes_le. rewrite bits_be_to_bytes_le_ok, rev_involutive. reflexivity. Qed.

Lemma pack_bytes_is_bytes bits : is_bytes (pack_bytes bits) = true.
Proof.
  unfold pack_bytes, is_bytes. rewrite forallb_forall. intros x Hx. apply in_map_iff in Hx.
  destruct Hx as [c [<- Hc]]. pose proof (chunks_forall_len 8 bits ltac:(lia)) as F. rewrite Forall_forall in F.
  specialize (F c Hc). pose proof (bits_le_val_bound c) as B.
  assert (2 ^ Z.of_nat (length c) <= 2 ^ 8) by (apply Z.pow_le_mono_r; lia).
  unfold is_byte. rewrite andb_true_iff, Z.leb_le, Z.ltb_lt. change (2 ^ 8) with 256 in *. lia.
Qed.
Lemma pack_bytes_length bits : length (pack_bytes bits) = ((length bits + 7) / 8)%nat.
Proof. unfold pack_bytes. rewrite map_length, chunks_length by lia. f_equal. lia. Qed.
Lemma pack_bytes_val bits : le_val (pack_bytes bits) = bits_le_val bits.
Proof.
  unfold pack_bytes. pattern bits. revert bits. apply (chunks_ind 8); [lia|reflexivity|].
  intros l Hl IH. rewrite chunks_cons by (assumption || lia). cbn [map le_val]. rewrite IH.
  rewrite <- (firstn_skipn 8 l) at 3. rewrite bits_le_val_app, firstn_length.
  destruct (Nat.le_gt_cases 8 (length l)) as [H|H].
  - rewrite Nat.min_l by lia. change (2 ^ Z.of_nat 8) with 256. lia.
  - rewrite (skipn_all2 l) by lia. cbn [bits_le_val]. lia.
Qed.

(** ** bytes to bits *)
Lemma byte_bits_length n b : length (byte_bits n b) = n.
Proof. revert b. induction n as [|n IH]; intros b; cbn [byte_bits length]; [reflexivity|]. rewrite IH. reflexivity. Qed.
Lemma byte_bits_val n b : bits_le_val (byte_bits n b) = b mod 2 ^ Z.of_nat n.
Proof.
  revert b. induction n as [|n IH]; intros b; cbn [byte_bits bits_le_val].
  - cbn. symmetry. apply Z.mod_1_r.
  - rewrite IH, Z.shiftr_div_pow2 by lia. change (2 ^ 1) with 2.
    rewrite Nat2Z.inj_succ, Z.pow_succ_r by lia.
    rewrite Z.rem_mul_r by (try lia; apply Z.pow_nonzero; lia).
    rewrite (Zmod_odd b). reflexivity.
Qed.
Lemma flat_bits_length l : length (flat_map (byte_bits 8) l) = (8 * length l)%nat.
Proof. induction l as [|b l IH]; [reflexivity|]. cbn [flat_map length]. rewrite app_length, byte_bits_length, IH. lia. Qed.
Lemma flat_bits_val l : is_bytes l = true -> bits_le_val (flat_map (byte_bits 8) l) = le_val l.
Proof.
  induction l as [|b l IH]; intros H; [reflexivity|]. apply is_bytes_cons in H. destruct H as [Hb Hl].
  cbn [flat_map le_val]. rewrite bits_le_val_app, byte_bits_length, byte_bits_val, IH by assumption.
  change (2 ^ Z.of_nat 8) with 256. rewrite Z.mod_small by lia. reflexivity.
Qed.
Lemma bits_le_val_firstn n l : bits_le_val (firstn n l) = bits_le_val l mod 2 ^ Z.of_nat n.
Proof.
  destruct (Nat.le_gt_cases (length l) n) as [H|H].
  - rewrite firstn_all2 by lia. symmetry. apply Z.mod_small. pose proof (bits_le_val_bound l).
    assert (2 ^ Z.of_nat (length l) <= 2 ^ Z.of_nat n) by (apply Z.pow_le_mono_r; lia). lia.
  - rewrite <- (firstn_skipn n l) at 2. rewrite bits_le_val_app, firstn_length_le by lia.
    rewrite Z.mul_comm, Z.mod_add by (apply Z.pow_nonzero; lia). symmetry. apply Z.mod_small.
    pose proof (bits_le_val_bound (firstn n l)) as B. rewrite firstn_length_le in B by lia. exact B.
Qed.
Lemma bytes_le_to_bits_le_eq l n : bytes_le_to_bits_le l n = firstn n (flat_map (byte_bits 8) l).
Proof. unfold bytes_le_to_bits_le, bytes_le_to_bits_be. apply rev_involutive. Qed.
Lemma bytes_le_to_bits_le_length l n : length (bytes_le_to_bits_le l n) = Nat.min n (8 * length l).
Proof. rewrite bytes_le_to_bits_le_eq, firstn_length, flat_bits_length. reflexivity. Qed.
Lemma bytes_le_to_bits_le_val l n : is_bytes l = true ->
  bits_le_val (bytes_le_to_bits_le l n) = le_val l mod 2 ^ Z.of_nat n.
Proof. intros H. rewrite bytes_le_to_bits_le_eq, bits_le_val_firstn, flat_bits_val by assumption. reflexivity. Qed.
Lemma bytes_le_to_bits_be_rev l n : bytes_le_to_bits_be l n = rev (bytes_le_to_bits_le l n).
Proof. unfold bytes_le_to_bits_le. symmetry. apply rev_involutive. Qed.

(** Round trips *)
Lemma bits_roundtrip bits k : (length bits <= k <= 8 * ((length bits + 7) / 8))%nat ->
  bytes_le_to_bits_le (pack_bytes bits) k = bits ++ repeat false (k - length bits).
Proof.
  intros Hk. apply bits_le_val_inj.
  - rewrite bytes_le_to_bits_le_length, pack_bytes_length, app_length, repeat_length. lia.
  - rewrite bytes_le_to_bits_le_val by apply pack_bytes_is_bytes.
    rewrite pack_bytes_val, bits_le_val_app, bits_le_val_zeros, Z.mul_0_r, Z.add_0_r.
    apply Z.mod_small. pose proof (bits_le_val_bound bits).
    assert (2 ^ Z.of_nat (length bits) <= 2 ^ Z.of_nat k) by (apply Z.pow_le_mono_r; lia). lia.
Qed.
Lemma div8_bound n : (n <= 8 * ((n + 7) / 8))%nat.
Proof. pose proof (Nat.div_mod (n + 7) 8 ltac:(lia)). pose proof (Nat.mod_upper_bound (n + 7) 8 ltac:(lia)). lia. Qed.
Lemma pack_bytes_inj bits bits' : length bits = length bits' -> pack_bytes bits = pack_bytes bits' -> bits = bits'.
Proof.
  intros E H. pose proof (bits_roundtrip bits (length bits)) as R.
  pose proof (bits_roundtrip bits' (length bits')) as R'.
  rewrite H, E in R. pose proof (div8_bound (length bits')).
  rewrite Nat.sub_diag in R, R'. cbn [repeat] in R, R'. rewrite !app_nil_r in R, R'.
  rewrite R' in R by lia. symmetry. apply R. lia.
Qed.
Lemma bytes_roundtrip l : is_bytes l = true -> pack_bytes (bytes_le_to_bits_le l (8 * length l)) = l.
Proof.
  intros H. apply le_val_inj; [apply pack_bytes_is_bytes|assumption| |].
  - rewrite pack_bytes_length, bytes_le_to_bits_le_length, Nat.min_id.
    rewrite Nat.mul_comm, Nat.div_add_l by lia. cbn. lia.
  - rewrite pack_bytes_val, bytes_le_to_bits_le_val by assumption. apply Z.mod_small.
    pose proof (le_val_bound l H) as B. replace (2 ^ Z.of_nat (8 * length l)) with (256 ^ Z.of_nat (length l)); [assumption|].
    change 256 with (2 ^ 8). rewrite <- Z.pow_mul_r by lia. f_equal. lia.
Qed.

(** Summary lemmas used by the property file *)
Lemma bits_to_bytes_spec bits :
  exists out, bits_le_to_bytes_le bits = Ok out /\ bits_be_to_bytes_le (rev bits) = Ok out /\
    is_bytes out = true /\ length out = ((length bits + 7) / 8)%nat /\ le_val out = bits_le_val bits.
Proof.
  exists (pack_bytes bits). rewrite bits_le_to_bytes_le_ok, bits_be_to_bytes_le_ok, rev_involutive.
  repeat split; [apply pack_bytes_is_bytes|apply pack_bytes_length|apply pack_bytes_val].
Qed.
Lemma bytes_to_bits_spec l n : is_bytes l = true ->
  bytes_le_to_bits_be l n = rev (bytes_le_to_bits_le l n) /\
  length (bytes_le_to_bits_le l n) = Nat.min n (8 * length l) /\
  bits_le_val (bytes_le_to_bits_le l n) = le_val l mod 2 ^ Z.of_nat n.
Proof.
  intros H. split; [apply bytes_le_to_bits_be_rev|]. split; [apply bytes_le_to_bits_le_length|].
  apply bytes_le_to_bits_le_val; assumption.
Qed.
Lemma bytes_bits_bytes l : is_bytes l = true ->
  bits_le_to_bytes_le (bytes_le_to_bits_le l (8 * length l)) = Ok l /\
  bits_be_to_bytes_le (bytes_le_to_bits_be l (8 * length l)) = Ok l.
Proof.
  intros H. rewrite bits_le_to_bytes_le_ok, bits_be_to_bytes_le_ok, bytes_le_to_bits_be_rev, rev_involutive.
  rewrite bytes_roundtrip by assumption. split; reflexivity.
Qed.
Lemma bits_bytes_bits bits out : bits_le_to_bytes_le bits = Ok out ->
  bytes_le_to_bits_le out (length bits) = bits /\
  bytes_le_to_bits_be out (length bits) = rev bits /\
  bytes_le_to_bits_le out (8 * length out) = bits ++ repeat false (8 * length out - length bits).
Proof.
  rewrite bits_le_to_bytes_le_ok. intros E; injection E as <-. pose proof (div8_bound (length bits)) as D.
  assert (R : bytes_le_to_bits_le (pack_bytes bits) (length bits) = bits).
  { rewrite bits_roundtrip by lia. rewrite Nat.sub_diag. apply app_nil_r. }
  rewrite bytes_le_to_bits_be_rev, R. repeat split.
  rewrite bits_roundtrip by (rewrite pack_bytes_length; lia). reflexivity.
Qed.

(** ** pack (C21) *)
Lemma all_some_map {A B} (f : A -> option B) (g : A -> B) l : Forall (fun x => f x = Some (g x)) l ->
  all_some (map f l) = Some (map g l).
Proof. induction 1 as [|x l H F IH]; [reflexivity|]. cbn [map all_some]. rewrite H, IH. reflexivity. Qed.
Lemma pack_ok q cap bits : (0 < cap)%nat -> 2 ^ Z.of_nat cap <= q ->
  pack q cap bits = Some (map from_bits_be (chunks cap bits)).
Proof.
  intros Hc Hq. unfold pack. apply all_some_map. eapply Forall_impl; [|apply (chunks_forall_len cap); assumption].
  intros c Hl. cbn beta in Hl. unfold from_repr. pose proof (from_bits_be_bound c).
  assert (2 ^ Z.of_nat (length c) <= 2 ^ Z.of_nat cap) by (apply Z.pow_le_mono_r; lia).
  assert (X : (from_bits_be c <? q) = true) by (apply Z.ltb_lt; lia). rewrite X. reflexivity.
Qed.
Lemma map_from_bits_inj (ll ll' : list (list bool)) : map (@length bool) ll = map (@length bool) ll' ->
  map from_bits_be ll = map from_bits_be ll' -> ll = ll'.
Proof.
  revert ll'. induction ll as [|l ll IH]; intros [|l' ll'] E V; try discriminate; [reflexivity|].
  cbn [map] in *. injection E as E1 E2. injection V as V1 V2. f_equal; [apply from_bits_be_inj; assumption|auto].
Qed.
Lemma pack_inj q cap bits bits' : (0 < cap)%nat -> 2 ^ Z.of_nat cap <= q -> length bits = length bits' ->
  pack q cap bits = pack q cap bits' -> bits = bits'.
Proof.
  intros Hc Hq E H. rewrite !pack_ok in H by assumption. injection H as H.
  apply map_from_bits_inj in H; [|apply chunks_shape; assumption].
  rewrite <- (concat_chunks cap bits), <- (concat_chunks cap bits'), H by assumption. reflexivity.
Qed.
