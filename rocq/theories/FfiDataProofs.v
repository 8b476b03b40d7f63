(** Proofs about the C interface: cache, hashes, compression, epoch blocks, SNARK verification. *)
From Coq Require Import Permutation Field.
From Verif Require Import Base Constants Group Field Curve BlsModel BlsSpec CacheModel CacheSpec CacheProofs
  BitsModel BitsProofs EncodingModel EncodingSpec EncodingProofs HasherModel HasherProofs PointModel PointProofs HashCurveModel HashCurveSpec HashCurveProofs
  CodecModel CodecSpec CodecProofs FfiModel FfiSpec FfiProofs.
Add Field Fqf : fq_field.

(** ** C52 *)
Section Cache.
  Context {E : cenv}.
  Notation rep := (jac (F E)).
  Lemma subtract_spec (h : list (cop E)) o1 o2 agg pks : Forall fair_op h -> fair o1 -> fair o2 ->
    exists Q, set_sum pks Q /\ snd (ffi_aggregate_public_keys_subtract o1 o2 (crun h) agg pks) = Returns true (Some (pt agg - Q)%G).
  Proof.
    intros Hh H1 H2. exists (snd (cache_aggregate o1 o2 (crun h) pks)). split; [apply aggregate_any_history; assumption|].
    unfold ffi_aggregate_public_keys_subtract. destruct (cache_aggregate o1 o2 (crun h) pks) as [c' P]. reflexivity.
  Qed.
  Lemma aggregate_spec (h : list (cop E)) o1 o2 pks P : Forall fair_op h -> fair o1 -> fair o2 ->
    snd (ffi_aggregate_public_keys o1 o2 (crun h) pks) = Returns true (Some P) <-> set_sum pks P.
  Proof.
    intros Hh H1 H2. pose proof (aggregate_any_history h o1 o2 pks Hh H1 H2) as A. unfold ffi_aggregate_public_keys.
    destruct (cache_aggregate o1 o2 (crun h) pks) as [c' Q]. cbn [snd] in *. cbn. split.
    - intros H. injection H as <-. exact A.
    - intros H. rewrite (set_sum_unique _ _ _ A H). reflexivity.
  Qed.
  Lemma set_sum_nodup (pks : list rep) : NoDup pks -> set_sum pks (sum_of pks).
  Proof. intros H. exists pks. split; [exact H|]. split; [reflexivity|reflexivity]. Qed.
  Lemma add_then_subtract (h h' : list (cop E)) o1 o2 o1' o2' all kept gone P agg :
    Forall fair_op h -> Forall fair_op h' -> fair o1 -> fair o2 -> fair o1' -> fair o2' ->
    NoDup (kept ++ gone) -> (forall k, In k all <-> In k (kept ++ gone)) ->
    snd (ffi_aggregate_public_keys o1 o2 (crun h) all) = Returns true (Some P) -> pt agg = P ->
    snd (ffi_aggregate_public_keys_subtract o1' o2' (crun h') agg gone) = Returns true (Some (sum_of kept)).
  Proof.
    intros Hh Hh' H1 H2 H3 H4 ND I HP <-. apply aggregate_spec in HP; [|assumption|assumption|assumption].
    destruct (subtract_spec h' o1' o2' agg gone Hh' H3 H4) as (Q & HQ & ->). f_equal. f_equal.
    assert (EQ : Q = sum_of gone).
    { apply (set_sum_unique gone); [exact HQ|]. apply set_sum_nodup. revert ND. clear. induction kept; [exact (fun x => x)|].
      intros H. inversion H. auto. }
    assert (EP : pt agg = sum_of (kept ++ gone)).
    { apply (set_sum_unique all); [exact HP|]. exists (kept ++ gone). split; [exact ND|]. split; [|reflexivity]. intros k. symmetry. apply I. }
    rewrite EP, EQ, sum_of_app, <- ga_assoc, gn_r, ga_0_r. reflexivity.
  Qed.
  Lemma duplicate_subtract (h h' : list (cop E)) o1 o2 o1' o2' a P agg :
    Forall fair_op h -> Forall fair_op h' -> fair o1 -> fair o2 -> fair o1' -> fair o2' ->
    snd (ffi_aggregate_public_keys o1 o2 (crun h) [a; a]) = Returns true (Some P) -> pt agg = P ->
    snd (ffi_aggregate_public_keys_subtract o1' o2' (crun h') agg [a]) = Returns true (Some gz).
  Proof.
    intros Hh Hh' H1 H2 H3 H4 HP HA.
    apply (add_then_subtract h h' o1 o2 o1' o2' [a; a] [] [a] P agg); try assumption.
    - repeat constructor. intros [].
    - intros k. cbn. tauto.
  Qed.
End Cache.

(** ** C53 *)
Section Keys.
  Context (sqrt : fq2 -> option fq2) (Hs : sqrt_spec q2mul sqrt) (in_subgroup : fq2 * fq2 -> bool).
  Notation deser := (public_key_deserialize sqrt in_subgroup).
  Notation rkeys := (read_keys sqrt in_subgroup).
  Notation rpub := (read_pubkeys sqrt in_subgroup).
  Lemma deser_not_panic l : deser l <> Panic.
  Proof.
    unfold public_key_deserialize, affine_deserialize. destruct (fq2_read_flags l) as [[[x f] rest]|]; [|discriminate].
    destruct f; [discriminate| |]; destruct (get_point_from_x _ _ _ _ _ _ _ _) as [[[x' y]|]|]; try discriminate; destruct (in_subgroup _); discriminate.
  Qed.
  Lemma read_keys_not_panic n : forall l, rkeys l n <> Panic.
  Proof.
    induction n as [|n IH]; intros l; [discriminate|]. cbn [read_keys]. pose proof (deser_not_panic l).
    destruct (deser l) as [P|e|]; cbn [rbind]; [|discriminate|congruence].
    pose proof (IH (skipn 96 l)). destruct (rkeys (skipn 96 l) n); cbn [rbind]; congruence.
  Qed.
  Lemma is_bytes_skipn n l : is_bytes l = true -> is_bytes (skipn n l) = true.
  Proof. unfold is_bytes. rewrite !forallb_forall. intros H x I. apply H. rewrite <- (firstn_skipn n l). apply in_or_app. right. exact I. Qed.
  Lemma skipn_add {A} a : forall b (l : list A), skipn a (skipn b l) = skipn (b + a) l.
  Proof. intros b. induction b as [|b IH]; intros l; [reflexivity|]. destruct l; [rewrite !skipn_nil; reflexivity|]. apply IH. Qed.
  Lemma read_keys_iff n : forall l ks, is_bytes l = true ->
    rkeys l n = Ok ks <-> length ks = n /\ forall i, (i < n)%nat -> (96 * S i <= length l)%nat /\
      exists P, nth_error ks i = Some P /\ key_at in_subgroup l i P.
  Proof.
    induction n as [|n IH]; intros l ks Hb; cbn [read_keys].
    - split; [intros H; injection H as <-; split; [reflexivity|intros i Hi; inversion Hi]|].
      intros [H _]. destruct ks; [reflexivity|discriminate H].
    - pose proof (IH (skipn 96 l)) as IHl. specialize (fun ks => IHl ks (is_bytes_skipn 96 l Hb)). split.
      + destruct (deser l) as [P|e|] eqn:D; cbn [rbind]; try discriminate.
        destruct (rkeys (skipn 96 l) n) as [ks'|e|] eqn:R; cbn [rbind]; try discriminate. intros H. injection H as <-.
        apply pk_deser_iff in D; [|exact Hs|exact Hb]. destruct D as (D1 & D2 & D3).
        destruct (proj1 (IHl ks') eq_refl) as [L A]. split; [cbn; congruence|].
        intros [|i] Hi.
        * split; [lia|]. exists P. split; [reflexivity|]. unfold key_at. rewrite Nat.mul_0_r, skipn_O. split; [exact D2|exact D3].
        * destruct (A i) as (A1 & Q & A2 & A3); [lia|]. rewrite skipn_length in A1. split; [lia|]. exists Q. split; [exact A2|].
          unfold key_at in *. rewrite skipn_add in A3. replace (96 * S i)%nat with (96 + 96 * i)%nat by lia. exact A3.
      + intros [L A]. destruct ks as [|P ks]; [discriminate L|]. injection L as L.
        destruct (A O) as (A1 & Q & A2 & A3); [lia|]. injection A2 as <-. unfold key_at in A3. rewrite Nat.mul_0_r, skipn_O in A3.
        rewrite (proj2 (pk_deser_iff sqrt Hs in_subgroup l P Hb)) by (split; [lia|exact A3]). cbn [rbind].
        rewrite (proj2 (IHl ks)); [reflexivity|]. split; [exact L|]. intros i Hi. destruct (A (S i)) as (B1 & R & B2 & B3); [lia|].
        rewrite skipn_length. split; [lia|]. exists R. split; [exact B2|].
        unfold key_at in *. rewrite skipn_add. replace (96 * S i)%nat with (96 + 96 * i)%nat in B3 by lia. exact B3.
  Qed.
  Lemma key_at_firstn mem m i P : (96 * S i <= m)%nat -> key_at in_subgroup (firstn m mem) i P <-> key_at in_subgroup mem i P.
  Proof.
    intros H. unfold key_at. rewrite firstn_skipn_comm, firstn_firstn. replace (min (96 * i + 96) m) with (96 * i + 96)%nat by lia.
    rewrite <- firstn_skipn_comm. reflexivity.
  Qed.
  Lemma wrap_small num : 0 <= num -> 0 < num * 96 <= (num * 96) mod 2 ^ 64 -> num * 96 < 2 ^ 64.
  Proof. intros H0 H. pose proof (Z.mod_pos_bound (num * 96) (2 ^ 64) eq_refl). lia. Qed.
  Lemma read_pubkeys_iff mem num ks : is_bytes mem = true -> 0 <= num -> (num * 96) mod 2 ^ 64 <= Z.of_nat (length mem) ->
    rpub mem num = Ok ks <->
    num * 96 < 2 ^ 64 /\ Z.of_nat (length ks) = num /\ forall i, (i < length ks)%nat -> exists P, nth_error ks i = Some P /\ key_at in_subgroup mem i P.
  Proof.
    intros Hb Hn Hm. unfold read_pubkeys, read_serialized_pubkeys, PUBKEY_BYTES.
    pose proof (Z.mod_pos_bound (num * 96) (2 ^ 64) eq_refl) as MB. set (w := (num * 96) mod 2 ^ 64) in *.
    assert (LW : length (firstn (Z.to_nat w) mem) = Z.to_nat w) by (rewrite firstn_length; lia).
    rewrite read_keys_iff by (apply is_bytes_firstn, Hb). rewrite LW. split.
    - intros [L A]. assert (W : num * 96 < 2 ^ 64).
      { destruct (Z.eq_dec num 0) as [->|NZ]; [reflexivity|]. apply wrap_small; [exact Hn|]. fold w.
        destruct (A (Z.to_nat num - 1)%nat) as [A1 _]; [lia|]. lia. }
      split; [exact W|]. split; [lia|]. intros i Hi. destruct (A i) as (A1 & P & A2 & A3); [lia|]. exists P. split; [exact A2|].
      apply key_at_firstn in A3; [exact A3|lia].
    - intros (W & L & A). assert (w = num * 96) by (apply Z.mod_small; lia). split; [lia|]. intros i Hi. split; [lia|].
      destruct (A i) as (P & A2 & A3); [lia|]. exists P. split; [exact A2|]. apply key_at_firstn; [lia|exact A3].
  Qed.
  Lemma serialize_pubkeys_length ks : length (serialize_pubkeys ks) = (96 * length ks)%nat.
  Proof. apply flat_map_len. intros P. apply sizes. Qed.
  Lemma serialize_pubkeys_bytes ks : is_bytes (serialize_pubkeys ks) = true.
  Proof.
    apply flat_map_is_bytes. intros [[x y]|]; unfold public_key_serialize, affine_serialize; apply fq2_write_is_bytes.
  Qed.
  Lemma read_serialized ks : forall rest, is_bytes rest = true -> Forall (valid_key in_subgroup) ks ->
    rkeys (serialize_pubkeys ks ++ rest) (length ks) = Ok ks.
  Proof.
    induction ks as [|P ks IH]; intros rest Hr V; [reflexivity|]. inversion V as [|? ? VP V']; subst.
    cbn [serialize_pubkeys flat_map length read_keys]. rewrite <- app_assoc.
    rewrite (pk_roundtrip sqrt Hs in_subgroup P); [|unfold is_bytes; rewrite forallb_app; apply andb_true_iff; split; [apply serialize_pubkeys_bytes|exact Hr]|exact VP].
    cbn [rbind]. rewrite skipn_app. replace (length (public_key_serialize P)) with 96%nat by (symmetry; apply sizes).
    rewrite skipn_all2 by (rewrite (proj1 (proj2 (proj2 sizes) P)); reflexivity). rewrite Nat.sub_diag, skipn_O. cbn [app].
    fold (serialize_pubkeys ks). rewrite IH by assumption. reflexivity.
  Qed.
  Lemma pubkeys_roundtrip ks rest : Z.of_nat (length ks) * 96 < 2 ^ 64 -> Forall (valid_key in_subgroup) ks ->
    rpub (serialize_pubkeys ks ++ rest) (Z.of_nat (length ks)) = Ok ks.
  Proof.
    intros W V. unfold read_pubkeys, read_serialized_pubkeys, PUBKEY_BYTES. rewrite Z.mod_small by lia.
    rewrite firstn_app, firstn_all2 by (rewrite serialize_pubkeys_length; lia).
    replace (Z.to_nat (Z.of_nat (length ks) * 96) - length (serialize_pubkeys ks))%nat with O by (rewrite serialize_pubkeys_length; lia).
    rewrite firstn_O, app_nil_r, Nat2Z.id, <- (app_nil_r (serialize_pubkeys ks)). apply read_serialized; [reflexivity|exact V].
  Qed.
  Lemma read_prefix mem mem' num : 0 <= num -> firstn (Z.to_nat (num * 96)) mem = firstn (Z.to_nat (num * 96)) mem' ->
    rpub mem num = rpub mem' num.
  Proof.
    intros H E. unfold read_pubkeys, read_serialized_pubkeys, PUBKEY_BYTES. f_equal.
    assert (L : (num * 96) mod 2 ^ 64 <= num * 96) by (apply Z.mod_le; lia).
    apply (f_equal (firstn (Z.to_nat ((num * 96) mod 2 ^ 64)))) in E. rewrite !firstn_firstn in E.
    rewrite Nat.min_l in E by lia. exact E.
  Qed.
  Lemma block_roundtrip (b : epoch_block g2_point) rest :
    (forall e, eb_epoch_entropy b = Some e -> length e = 16%nat) -> (forall e, eb_parent_entropy b = Some e -> length e = 16%nat) ->
    Z.of_nat (length (eb_keys b)) * 96 < 2 ^ 64 -> Forall (valid_key in_subgroup) (eb_keys b) ->
    epoch_block_try_from sqrt in_subgroup (EpochBlockFFI (eb_index b) (eb_round b) (eb_epoch_entropy b) (eb_parent_entropy b)
      (serialize_pubkeys (eb_keys b) ++ rest) (Z.of_nat (length (eb_keys b))) (eb_max_non_signers b) (eb_max_validators b)) = Ok b.
  Proof.
    intros H1 H2 W V. unfold epoch_block_try_from. cbn [ef_pubkeys ef_pubkeys_num ef_index ef_round ef_epoch_entropy ef_parent_entropy ef_max_non_signers ef_max_validators].
    rewrite pubkeys_roundtrip by assumption. cbn [rbind]. destruct b as [i rd e pe ns mv ks]. cbn in *.
    assert (T : forall o : option bytes, (forall e, o = Some e -> length e = 16%nat) -> read_epoch_entropy o = o).
    { intros [l|] Hl; [|reflexivity]. unfold read_epoch_entropy. rewrite firstn_all2; [reflexivity|]. rewrite (Hl l eq_refl). apply le_n. }
    rewrite (T e H1), (T pe H2). reflexivity.
  Qed.
End Keys.

(** ** C54 *)
Lemma as_c_int_small n : 0 <= n < 2 ^ 31 -> as_c_int n = n.
Proof. intros H. unfold as_c_int. rewrite Z.mod_small; lia. Qed.
Lemma as_c_int_range n : - 2 ^ 31 <= as_c_int n < 2 ^ 31.
Proof. unfold as_c_int. pose proof (Z.mod_pos_bound (n + 2 ^ 31) (2 ^ 32) eq_refl). lia. Qed.
Lemma as_c_int_iff n : 0 <= n -> as_c_int n = n <-> n < 2 ^ 31.
Proof. intros H. split; [intros <-; apply as_c_int_range|intros H'; apply as_c_int_small; lia]. Qed.

Definition block_cip22 index round (epoch_entropy parent_entropy : option bytes) max_non_signers max_validators (keys : list g2_point) :=
  mk_block index round (option_map (firstn 16) epoch_entropy) (option_map (firstn 16) parent_entropy) max_non_signers max_validators keys.
Lemma read_entropy_map ptr : read_epoch_entropy ptr = option_map (firstn 16) ptr.
Proof. destruct ptr; reflexivity. Qed.
Lemma entropy_ptr_wf ptr : entropy_ptr ptr -> wf_entropy (option_map (firstn 16) ptr).
Proof. destruct ptr as [l|]; [|exact (fun x => x)]. unfold entropy_ptr, wf_entropy, option_map. intros [B L]. split; [apply is_bytes_firstn, B|]. rewrite firstn_length. lia. Qed.
Lemma encode_cip22_spec i rd e pe ns mv ks : entropy_ptr e -> entropy_ptr pe -> 
  wf_block (mk_block i rd None None ns mv ks) ->
  exists m x, enc_signed (block_cip22 i rd e pe ns mv ks) = Ok (m, x) /\ length x = 7%nat /\
    ffi_encode_epoch_block_to_bytes_cip22 i rd e pe ns mv ks =
      Returns true (Some ((m, as_c_int (Z.of_nat (length m))), (x, 7))).
Proof.
  intros He Hp (W1 & _ & _ & W2).
  assert (W : wf_block (block_cip22 i rd e pe ns mv ks)).
  { split; [exact W1|]. split; [apply entropy_ptr_wf, He|]. split; [apply entropy_ptr_wf, Hp|exact W2]. }
  destruct (enc_lengths _ W) as (_ & _ & _ & m & x & E & _ & Lx). exists m, x. split; [exact E|]. split; [exact Lx|].
  unfold ffi_encode_epoch_block_to_bytes_cip22. rewrite (read_entropy_map e), (read_entropy_map pe). unfold enc_signed, block_cip22 in E. rewrite E. cbn [rbind store convert_result_to_bool].
  unfold out_vec. rewrite Lx. reflexivity.
Qed.
Lemma encode_plain_spec i ns ks : wf_block (mk_block i 0 None None ns (Z.of_nat (length ks)) ks) ->
  exists m, enc_plain (mk_block i 0 None None ns (Z.of_nat (length ks)) ks) = Ok m /\
    ffi_encode_epoch_block_to_bytes i ns ks = Returns true (Some (m, as_c_int (Z.of_nat (length m)))).
Proof.
  intros W. destruct (enc_lengths _ W) as (_ & _ & (m & E & _) & _). exists m. split; [exact E|].
  unfold ffi_encode_epoch_block_to_bytes. unfold enc_plain in E. rewrite E. reflexivity.
Qed.
Lemma encode_cip22_binding i rd e pe ns mv ks i' rd' e' pe' ns' mv' ks' out :
  entropy_ptr e -> entropy_ptr pe -> wf_block (mk_block i rd None None ns mv ks) ->
  entropy_ptr e' -> entropy_ptr pe' -> wf_block (mk_block i' rd' None None ns' mv' ks') ->
  ffi_encode_epoch_block_to_bytes_cip22 i rd e pe ns mv ks = Returns true (Some out) ->
  ffi_encode_epoch_block_to_bytes_cip22 i' rd' e' pe' ns' mv' ks' = Returns true (Some out) ->
  i = i' /\ rd = rd' /\ ns = ns' /\ entropy_value e = entropy_value e' /\ entropy_value pe = entropy_value pe' /\
  padded_keys (mk_block i rd None None ns mv ks) = padded_keys (mk_block i' rd' None None ns' mv' ks').
Proof.
  intros He Hp W He' Hp' W' E E'.
  destruct (encode_cip22_spec i rd e pe ns mv ks He Hp W) as (m & x & S0 & _ & R).
  destruct (encode_cip22_spec i' rd' e' pe' ns' mv' ks' He' Hp' W') as (m' & x' & S1 & _ & R').
  rewrite R in E. rewrite R' in E'. injection E as <-. injection E' as E1 E2 E3.
  assert (EV : forall o, entropy_value (option_map (firstn 16) o) = entropy_value o).
  { intros [l|]; [|reflexivity]. unfold entropy_value, option_map. rewrite firstn_firstn. reflexivity. }
  destruct (enc_signed_inj (block_cip22 i rd e pe ns mv ks) (block_cip22 i' rd' e' pe' ns' mv' ks')) as (A1 & A2 & A3 & A4 & A5 & A6).
  - destruct W as (W1 & _ & _ & W2). split; [exact W1|]. split; [apply entropy_ptr_wf, He|]. split; [apply entropy_ptr_wf, Hp|exact W2].
  - destruct W' as (W1 & _ & _ & W2). split; [exact W1|]. split; [apply entropy_ptr_wf, He'|]. split; [apply entropy_ptr_wf, Hp'|exact W2].
  - rewrite S0, S1. congruence.
  - cbn in A1, A2, A3, A4, A5. rewrite !EV in *. repeat split; assumption.
Qed.
Lemma encode_plain_binding i ns ks i' ns' ks' out :
  wf_block (mk_block i 0 None None ns (Z.of_nat (length ks)) ks) -> wf_block (mk_block i' 0 None None ns' (Z.of_nat (length ks')) ks') ->
  ffi_encode_epoch_block_to_bytes i ns ks = Returns true (Some out) -> ffi_encode_epoch_block_to_bytes i' ns' ks' = Returns true (Some out) ->
  i = i' /\ ns = ns' /\ ks = ks'.
Proof.
  intros W W' E E'. destruct (encode_plain_spec i ns ks W) as (m & S0 & R). destruct (encode_plain_spec i' ns' ks' W') as (m' & S1 & R').
  rewrite R in E. rewrite R' in E'. injection E as <-. injection E' as E1 E2.
  apply (enc_plain_inj _ _ W W'). rewrite S0, S1. congruence.
Qed.
Lemma encode_null_entropy i rd ns mv ks :
  ffi_encode_epoch_block_to_bytes_cip22 i rd None None ns mv ks =
  ffi_encode_epoch_block_to_bytes_cip22 i rd (Some (repeat 0 16)) (Some (repeat 0 16)) ns mv ks.
Proof.
  unfold ffi_encode_epoch_block_to_bytes_cip22. unfold read_epoch_entropy. rewrite (firstn_all2 (repeat 0 16)) by (rewrite repeat_length; apply le_n).
  destruct (entropy_none_zero (mk_block i rd None None ns mv ks) None) as (_ & _ & E). 
  unfold set_entropies in E. cbn [eb_index eb_round eb_max_non_signers eb_max_validators eb_keys] in E. unfold enc_signed in E. rewrite E. reflexivity.
Qed.
Lemma encode_length_wraps : exists i rd ns mv, wf_block (mk_block i rd None None ns mv []) /\ 0 <= mv < 2 ^ 32 /\
  exists m n x, ffi_encode_epoch_block_to_bytes_cip22 i rd None None ns mv [] = Returns true (Some ((m, n), x)) /\ n <> Z.of_nat (length m).
Proof.
  exists 0, 0, 0, (2 ^ 32 - 1). assert (W : wf_block (mk_block 0 0 None None 0 (2 ^ 32 - 1) [])).
  { split; [repeat split; reflexivity || (cbn [eb_index eb_round eb_max_non_signers]; lia)|]. split; [exact I|]. split; [exact I|reflexivity]. }
  split; [exact W|]. split; [lia|]. destruct (encode_cip22_spec 0 0 None None 0 (2 ^ 32 - 1) [] I I W) as (m & x & S0 & _ & R).
  exists m, (as_c_int (Z.of_nat (length m))), (x, 7). split; [exact R|].
  destruct (enc_lengths _ W) as (_ & _ & _ & m' & x' & E & L & _).
  assert (m' = m) as ->. { unfold block_cip22 in S0. cbn [option_map] in S0. change (list byte) with bytes in S0. rewrite S0 in E. apply ok_pair_inj in E. symmetry. apply E. }
  unfold padded_keys in L. cbn [eb_keys eb_max_validators] in L. rewrite app_nil_l, repeat_length in L. change (length (@nil g2_point)) with 0%nat in L.
  rewrite Nat.sub_0_r, Z2Nat.id in L by lia. unfold byte_len in L. change ((256 + 755 * (2 ^ 32 - 1) + 7) / 8) with 405337538498 in L.
  pose proof (as_c_int_range (Z.of_nat (length m))). lia.
Qed.

(** ** C55 *)
Lemma fq_read_exact l : length l = 48%nat -> fq_read l = if bytes_number l <? p then Some (fq_of (bytes_number l), []) else None.
Proof.
  intros H. unfold fq_read, fp_read. rewrite H. change (48 <? 48)%nat with false. cbv iota. rewrite firstn_all2 by lia.
  change (le_val l) with (bytes_number l). destruct (bytes_number l <? p); [|reflexivity]. rewrite skipn_all2 by lia. reflexivity.
Qed.
Lemma slice_ok a b l : (a <= b)%nat -> (b <= length l)%nat -> slice a b l = Ok (firstn (b - a) (skipn a l)) /\ length (firstn (b - a) (skipn a l)) = (b - a)%nat.
Proof. intros H H'. unfold slice. destruct (Nat.leb_spec b (length l)); [|lia]. split; [reflexivity|]. rewrite firstn_length, skipn_length. lia. Qed.
Lemma slice_panic a b l : (length l < b)%nat -> slice a b l = Panic.
Proof. intros H. unfold slice. destruct (Nat.leb_spec b (length l)); [lia|reflexivity]. Qed.
Lemma read_fq_at a l : (48 + a <= length l)%nat ->
  rbind (slice a (48 + a) l) (fun l => read_unwrap (fq_read l)) =
  if bytes_number (firstn 48 (skipn a l)) <? p then Ok (fq_of (bytes_number (firstn 48 (skipn a l)))) else Panic.
Proof.
  intros H. destruct (slice_ok a (48 + a) l) as [E L]; [lia|lia|]. rewrite E. replace (48 + a - a)%nat with 48%nat in * by lia.
  cbn [rbind]. rewrite fq_read_exact by exact L. destruct (_ <? p); reflexivity.
Qed.
Lemma compress_signature_cases l :
  ffi_compress_signature l =
  if (96 <=? length l)%nat && (num48 0 l <? p) && (num48 1 l <? p)
  then Returns true (Some (signature_serialize (Some (fq_of (num48 0 l), fq_of (num48 1 l))), 48)) else Panics.
Proof.
  unfold ffi_compress_signature. destruct (Nat.leb_spec 96 (length l)) as [L|L]; cbn [andb].
  - change 48%nat with (48 + 0)%nat at 1. rewrite read_fq_at by lia. change 96%nat with (48 + 48)%nat. rewrite read_fq_at by lia.
    unfold num48. change (48 * 0)%nat with 0%nat. change (48 * 1)%nat with 48%nat.
    destruct (_ <? p); cbn [rbind andb]; [|reflexivity]. destruct (bytes_number (firstn 48 (skipn 48 l)) <? p); cbn [rbind]; [|reflexivity].
    unfold out_vec. rewrite (proj1 (proj1 (proj2 sizes) _)). reflexivity.
  - rewrite (slice_panic 48 96) by exact L. destruct (rbind (slice 0 48 l) _) as [x|e|] eqn:X; cbn [rbind]; try reflexivity.
    unfold slice in X. destruct (48 <=? length l)%nat; cbn [rbind] in X; [|discriminate X]. unfold read_unwrap in X. destruct (fq_read _) as [[v w]|]; discriminate X.
Qed.
Lemma fq2_read_exact l : length l = 96%nat -> fq2_read l =
  if (num48 0 l <? p) && (num48 1 l <? p) then Some ((fq_of (num48 0 l), fq_of (num48 1 l)), []) else None.
Proof.
  intros H. unfold fq2_read, num48. change (48 * 0)%nat with 0%nat. change (48 * 1)%nat with 48%nat. rewrite skipn_O. unfold fq_read at 1, fp_read.
  destruct (Nat.ltb_spec (length l) 48); [lia|]. change (le_val (firstn 48 l)) with (bytes_number (firstn 48 l)).
  destruct (bytes_number (firstn 48 l) <? p); [|reflexivity]. cbn [andb]. rewrite fq_read_exact by (rewrite skipn_length; lia).
  rewrite (firstn_all2 (skipn 48 l)) by (rewrite skipn_length; lia). destruct (_ <? p); reflexivity.
Qed.
Lemma num48_slice a i l : (i < 2)%nat -> num48 i (firstn 96 (skipn (96 * a) l)) = num48 (2 * a + i) l.
Proof.
  intros H. unfold num48. f_equal. rewrite skipn_firstn_comm, firstn_firstn, skipn_add. replace (min 48 (96 - 48 * i)) with 48%nat by lia.
  f_equal. f_equal. lia.
Qed.
Lemma read_fq2_at a l : (96 * S a <= length l)%nat ->
  rbind (slice (96 * a) (96 * S a) l) (fun l => read_unwrap (fq2_read l)) =
  if (num48 (2 * a) l <? p) && (num48 (2 * a + 1) l <? p) then Ok (fq_of (num48 (2 * a) l), fq_of (num48 (2 * a + 1) l)) else Panic.
Proof.
  intros H. destruct (slice_ok (96 * a) (96 * S a) l) as [E L]; [lia|lia|]. rewrite E. replace (96 * S a - 96 * a)%nat with 96%nat in * by lia.
  cbn [rbind]. rewrite fq2_read_exact by exact L. rewrite !num48_slice by lia. rewrite Nat.add_0_r. destruct (_ && _); reflexivity.
Qed.
Lemma compress_pubkey_cases l :
  ffi_compress_pubkey l =
  if (192 <=? length l)%nat && (num48 0 l <? p) && (num48 1 l <? p) && (num48 2 l <? p) && (num48 3 l <? p)
  then Returns true (Some (public_key_serialize (Some ((fq_of (num48 0 l), fq_of (num48 1 l)), (fq_of (num48 2 l), fq_of (num48 3 l)))), 96)) else Panics.
Proof.
  unfold ffi_compress_pubkey. destruct (Nat.leb_spec 192 (length l)) as [L|L]; cbn [andb].
  - change (slice 0 96 l) with (slice (96 * 0) (96 * 1) l). change (slice 96 192 l) with (slice (96 * 1) (96 * 2) l).
    rewrite read_fq2_at by lia. rewrite read_fq2_at by lia. cbn [Nat.mul Nat.add].
    destruct (num48 0 l <? p), (num48 1 l <? p); cbn [rbind andb]; try reflexivity.
    destruct (num48 2 l <? p), (num48 3 l <? p); cbn [rbind andb]; reflexivity.
  - rewrite (slice_panic 96 192) by exact L. destruct (rbind (slice 0 96 l) _) as [x|e|] eqn:X; cbn [rbind]; try reflexivity.
    unfold slice in X. destruct (96 <=? length l)%nat; cbn [rbind] in X; [|discriminate X]. unfold read_unwrap in X. destruct (fq2_read _) as [[v w]|]; discriminate X.
Qed.
Lemma num48_write x f i l rest : length l = (48 * i)%nat -> num48 i (l ++ fq_write x (sw_u8_bitmask f) ++ rest) = fqv x + 2 ^ 382 * tag f.
Proof.
  intros L. unfold num48. rewrite skipn_app, L, Nat.sub_diag, skipn_O, skipn_all2 by lia. cbn [app].
  rewrite firstn_app, fq_write_length, Nat.sub_diag, firstn_O, app_nil_r, firstn_all2 by (rewrite fq_write_length; lia).
  change (bytes_number (fq_write x (sw_u8_bitmask f))) with (number (fq_write x (sw_u8_bitmask f))). apply fq_write_number.
Qed.
Lemma num48_write0 x f rest : num48 0 (fq_write x (sw_u8_bitmask f) ++ rest) = fqv x + 2 ^ 382 * tag f.
Proof. apply (num48_write x f 0 []). reflexivity. Qed.
Lemma fq_write_mask0 x : fq_write x 0 = fq_write x (sw_u8_bitmask NegY). Proof. reflexivity. Qed.
Lemma fqv_small x : (fqv x <? p) = true. Proof. apply Z.ltb_lt. apply fqv_range. Qed.
Lemma fq_of_fqv x : fq_of (fqv x) = x. Proof. apply fq_ext. rewrite fqv_of. apply fqv_mod. Qed.
Lemma tag_inf x : (fqv x + 2 ^ 382 * tag Infinity <? p) = false.
Proof. apply Z.ltb_ge. pose proof (fqv_range x). assert (p < 2 ^ 382) by reflexivity. cbn [tag]. lia. Qed.
Lemma compress_signature_agrees Q rest :
  ffi_compress_signature (signature_serialize_uncompressed (Some Q) ++ rest) = Returns true (Some (signature_serialize (Some Q), 48)) /\
  ffi_compress_signature (signature_serialize_uncompressed None ++ rest) = Panics.
Proof.
  destruct Q as [x y]. rewrite !compress_signature_cases. unfold signature_serialize_uncompressed, affine_serialize_uncompressed. rewrite !fq_write_mask0, <- !app_assoc. split.
  - rewrite num48_write0. rewrite (num48_write y NegY 1) by apply fq_write_length. cbn [tag]. rewrite !Z.mul_0_r, !Z.add_0_r, !fqv_small, !fq_of_fqv.
    rewrite !app_length, !fq_write_length. destruct (Nat.leb_spec 96 (48 + (48 + length rest))); [reflexivity|lia].
  - rewrite (num48_write q1 Infinity 1) by apply fq_write_length. rewrite tag_inf, !andb_false_r. reflexivity.
Qed.
Lemma compress_pubkey_agrees Q rest :
  ffi_compress_pubkey (public_key_serialize_uncompressed (Some Q) ++ rest) = Returns true (Some (public_key_serialize (Some Q), 96)) /\
  ffi_compress_pubkey (public_key_serialize_uncompressed None ++ rest) = Panics.
Proof.
  destruct Q as [[x0 x1] [y0 y1]]. rewrite !compress_pubkey_cases. unfold public_key_serialize_uncompressed, affine_serialize_uncompressed, fq2_write. cbn [fst snd].
  split.
  - rewrite (fq_write_mask0 x0), (fq_write_mask0 x1), (fq_write_mask0 y0), ?(fq_write_mask0 y1). assert (E : forall i, num48 i (((fq_write x0 (sw_u8_bitmask NegY) ++ fq_write x1 (sw_u8_bitmask NegY)) ++ fq_write y0 (sw_u8_bitmask NegY) ++ fq_write y1 (sw_u8_bitmask NegY)) ++ rest)
      = num48 i (fq_write x0 (sw_u8_bitmask NegY) ++ (fq_write x1 (sw_u8_bitmask NegY) ++ fq_write y0 (sw_u8_bitmask NegY) ++ fq_write y1 (sw_u8_bitmask NegY) ++ rest))).
    { intros i. rewrite <- !app_assoc. reflexivity. }
    rewrite (E 0%nat), (E 1%nat), (E 2%nat), (E 3%nat). rewrite num48_write0. rewrite (num48_write x1 NegY 1) by apply fq_write_length.
    rewrite (app_assoc (fq_write x0 _)). rewrite (num48_write y0 NegY 2) by (rewrite app_length, !fq_write_length; reflexivity).
    replace (((fq_write x0 (sw_u8_bitmask NegY) ++ fq_write x1 (sw_u8_bitmask NegY)) ++ fq_write y0 (sw_u8_bitmask NegY) ++ fq_write y1 (sw_u8_bitmask NegY) ++ rest))
      with ((((fq_write x0 (sw_u8_bitmask NegY) ++ fq_write x1 (sw_u8_bitmask NegY)) ++ fq_write y0 (sw_u8_bitmask NegY)) ++ fq_write y1 (sw_u8_bitmask NegY) ++ rest)) by (rewrite <- !app_assoc; reflexivity).
    rewrite (num48_write y1 NegY 3) by (rewrite !app_length, !fq_write_length; reflexivity).
    cbn [tag]. rewrite !Z.mul_0_r, !Z.add_0_r, !fqv_small, !fq_of_fqv.
    rewrite !app_length, !fq_write_length. destruct (Nat.leb_spec 192 (48 + 48 + (48 + 48) + length rest)); [reflexivity|lia].
  - rewrite <- (app_assoc (fq_write (fst q2_0) _ ++ _)), <- (app_assoc (fq_write (fst q2_1) _)).
    rewrite (app_assoc (fq_write (fst q2_0) _ ++ _)). rewrite (num48_write (snd q2_1) Infinity 3) by (rewrite !app_length, !fq_write_length; reflexivity).
    rewrite tag_inf, !andb_false_r. reflexivity.
Qed.
Lemma serialize_sign_only x y y' : (fqv (qopp y) < fqv y <-> fqv (qopp y') < fqv y') ->
  signature_serialize (Some (x, y)) = signature_serialize (Some (x, y')).
Proof.
  intros H. unfold signature_serialize, affine_serialize. replace (q_ltb (qopp y) y) with (q_ltb (qopp y') y'); [reflexivity|].
  unfold q_ltb. apply eq_iff_eq_true. rewrite !Z.ltb_lt. symmetry. exact H.
Qed.

(** ** C50, C57: the hash-to-curve loops do not panic *)
Section Total.
  Context {K : Type} (E : grp) (of_point : apoint K -> E) (cofactor : Z) (num_bytes : nat) (decode : bytes -> option (apoint K)) (compat : bool).
  Lemma candidate_total out : (num_bytes <= length out)%nat -> candidate E of_point cofactor num_bytes decode compat out <> Panic.
  Proof.
    intros H. unfold candidate. destruct (Nat.ltb_spec (length out) num_bytes); [lia|].
    destruct (decode _) as [P|]; [|discriminate]. destruct (geqb _ _); discriminate.
  Qed.
  Lemma tries_total f cs : (forall c, In c cs -> f c <> Panic) -> tries E f cs <> Panic.
  Proof.
    induction cs as [|c cs IH]; intros H; [discriminate|]. cbn [tries]. pose proof (H c (or_introl eq_refl)).
    destruct (f c) as [[P|]|e|]; cbn [rbind]; try discriminate; [|congruence]. apply IH. intros c' I. apply H. right. exact I.
  Qed.
  Lemma attempt_total h d m x :
    (forall c, match hash h d ([c] ++ x ++ m) (hash_bytes num_bytes) with Ok out => (num_bytes <= length out)%nat | Err _ => True | Panic => False end) ->
    hash_with_attempt E of_point cofactor num_bytes decode compat h d m x <> Panic.
  Proof.
    intros H. apply tries_total. intros c _. unfold try_plain. specialize (H c). destruct (hash h d _ _); cbn [rbind]; [|discriminate|destruct H].
    apply candidate_total. exact H.
  Qed.
  Lemma attempt22_total h d m x : crh h d m (hash_bytes num_bytes) <> Panic ->
    (forall c inner, match xof h d ([c] ++ x ++ inner) (hash_bytes num_bytes) with Ok out => (num_bytes <= length out)%nat | Err _ => True | Panic => False end) ->
    hash_with_attempt_cip22 E of_point cofactor num_bytes decode compat h d m x <> Panic.
  Proof.
    intros H0 H. unfold hash_with_attempt_cip22. destruct (crh h d m _) as [inner|e|]; cbn [rbind]; [|discriminate|congruence].
    apply tries_total. intros c _. unfold try_cip22. specialize (H c inner). destruct (xof h d _ _); cbn [rbind]; [|discriminate|destruct H].
    apply candidate_total. exact H.
  Qed.
End Total.
Lemma hash_bytes_48 : hash_bytes G1_BYTES = 64. Proof. reflexivity. Qed.
Lemma drop_total {E : grp} (x : result (E * Z)) : x <> Panic -> rbind x (fun res => Ok (fst res)) <> Panic.
Proof. destruct x; cbn [rbind]; congruence. Qed.
Section G1Total.
  Context (compat : bool) (E : grp) (of_point : g1_point -> E) (cofactor : Z) (sqrt : fq -> option fq).
  Context (pedersen : bytes -> result bytes).
  Lemma direct_attempt_total d m x : (length d <= 8)%nat -> g1_attempt compat direct_hasher E of_point cofactor sqrt d m x <> Panic.
  Proof.
    intros Hd. apply attempt_total. intros c. rewrite hash_bytes_48. destruct (direct_hash_ok d ([c] ++ x ++ m) 64 Hd) as (out & -> & L); [lia|].
    unfold G1_BYTES. lia.
  Qed.
  Lemma composite_attempt_total d m x : (forall c, pedersen (c :: x ++ m) <> Panic) -> (length d <= 8)%nat -> g1_attempt compat (composite_hasher pedersen) E of_point cofactor sqrt d m x <> Panic.
  Proof.
    intros PT Hd. apply attempt_total. intros c. rewrite hash_bytes_48. pose proof (PT c) as T. change (c :: x ++ m) with ([c] ++ x ++ m) in T.
    destruct (pedersen ([c] ++ x ++ m)) as [o|e|] eqn:P; [|unfold hash, composite_hasher; cbn [crh]; rewrite P; exact I|congruence].
    destruct (composite_hash_ok pedersen d ([c] ++ x ++ m) 64 o Hd) as (out & -> & L); [lia|exact P|]. unfold G1_BYTES. lia.
  Qed.
  Lemma cip22_attempt_total d m x : pedersen m <> Panic -> (length d <= 8)%nat -> g1_attempt_cip22 compat (composite_hasher pedersen) E of_point cofactor sqrt d m x <> Panic.
  Proof.
    intros PT Hd. apply attempt22_total; [exact PT|]. intros c inner. rewrite hash_bytes_48.
    destruct (xof_spec d ([c] ++ x ++ inner) 64 Hd) as (out & E1 & L & _); [lia|]. change (xof (composite_hasher pedersen)) with direct_xof. rewrite E1. unfold G1_BYTES. lia.
  Qed.
  Lemma hash_total d m x : (length d <= 8)%nat ->
    g1_hash compat direct_hasher E of_point cofactor sqrt d m x <> Panic /\
    ((forall c, pedersen (c :: x ++ m) <> Panic) -> g1_hash compat (composite_hasher pedersen) E of_point cofactor sqrt d m x <> Panic) /\
    (pedersen m <> Panic -> g1_hash_cip22 compat (composite_hasher pedersen) E of_point cofactor sqrt d m x <> Panic).
  Proof.
    intros Hd. split; [|split; intros PT]; apply drop_total; [apply direct_attempt_total; exact Hd|apply composite_attempt_total; assumption|apply cip22_attempt_total; assumption].
  Qed.
End G1Total.
Lemma ffi_domain_short b : (length (ffi_domain b) <= 8)%nat. Proof. destruct b; cbn; lia. Qed.

(** ** C57 *)
Section HashOut.
  Context (E : grp) (of_point : g1_point -> E) (sqrt : fq -> option fq) (affine_of : E -> g1_point) (rep_of : E -> jac fq).
  Context (Hsq : sqrt_spec qmul sqrt) (pedersen : bytes -> result bytes).
  Context (ped_bytes : forall m out, pedersen m = Ok out -> is_bytes out = true).
  Notation good := (gives (denotes_g1 377) of_point G1_COFACTOR 48).
  Lemma affine_write_length P : length (g1_affine_write P) = 97%nat.
  Proof. destruct P as [[x y]|]; unfold g1_affine_write; rewrite !app_length, !fq_write_length; reflexivity. Qed.
  Lemma projective_write_length P : length (g1_projective_write P) = 144%nat.
  Proof. unfold g1_projective_write. rewrite !app_length, !fq_write_length. reflexivity. Qed.
  Lemma direct_with_attempt_iff m (pop : bool) out : 
    ffi_hash_direct_with_attempt E of_point sqrt affine_of m pop = Returns true (Some out) <->
    exists P c, least_success (fun c => hash direct_hasher (if pop then POP_DOMAIN else SIG_DOMAIN) (c :: m) 64) 48 good P c /\
      out = ((g1_affine_write (affine_of P), 97), c).
  Proof.
    pose proof (fun P c => plain_ok of_point G1_COFACTOR G1_BYTES (g1_from_random_bytes sqrt) true (denotes_g1 377)
      (fun l Q => g1_candidate_decode true sqrt l Q Hsq) direct_hasher direct_bytes (if pop then POP_DOMAIN else SIG_DOMAIN) m [] P c) as PL.
    fold (g1_attempt true direct_hasher E of_point G1_COFACTOR sqrt) in PL. unfold ffi_hash_direct_with_attempt, ffi_domain.
    set (at_ := g1_attempt true direct_hasher E of_point G1_COFACTOR sqrt (if pop then POP_DOMAIN else SIG_DOMAIN) m []) in *. cbn [app] in PL.
    assert (EQ : forall P c, at_ = Ok (P, c) -> 0 <= c < 255) by (intros P c Hc; apply PL in Hc; apply Hc).
    destruct at_ as [[P c]|e|]; cbn [rbind store convert_result_to_bool].
    - pose proof (EQ P c eq_refl) as R. unfold out_vec. rewrite affine_write_length. rewrite (as_c_int_small c) by lia. change (as_c_int (Z.of_nat 97)) with 97. split.
      + intros H. injection H as <-. exists P, c. split; [apply PL; reflexivity|reflexivity].
      + intros (P' & c' & L & ->). apply PL in L. injection L as <- <-. reflexivity.
    - split; [discriminate|]. intros (P & c & L & _). apply PL in L. discriminate L.
    - split; [discriminate|]. intros (P & c & L & _). apply PL in L. discriminate L.
  Qed.
  Lemma direct_is_attempt m pop b : ffi_hash_direct E of_point sqrt affine_of m pop = Returns true (Some b) <->
    exists c, ffi_hash_direct_with_attempt E of_point sqrt affine_of m pop = Returns true (Some (b, c)).
  Proof.
    unfold ffi_hash_direct, ffi_hash_direct_with_attempt.
    change (g1_hash true direct_hasher E of_point G1_COFACTOR sqrt (ffi_domain pop) m [])
      with (rbind (g1_attempt true direct_hasher E of_point G1_COFACTOR sqrt (ffi_domain pop) m []) (fun res => Ok (fst res))).
    destruct (g1_attempt true direct_hasher E of_point G1_COFACTOR sqrt (ffi_domain pop) m []) as [[P c]|e|]; cbn [rbind store convert_result_to_bool fst].
    - split; [intros H; injection H as <-; eexists; reflexivity|]. intros [c' H]. injection H as <- _. reflexivity.
    - split; [discriminate|intros [c H]; discriminate H].
    - split; [discriminate|intros [c H]; discriminate H].
  Qed.
  Lemma composite_out m x out :
    ffi_hash_composite E of_point sqrt rep_of pedersen m x = Returns true (Some out) <->
    exists P c, least_success (fun c => hash (composite_hasher pedersen) SIG_DOMAIN (c :: x ++ m) 64) 48 good P c /\
      out = (g1_projective_write (rep_of P), 144).
  Proof.
    pose proof (fun P c => plain_ok of_point G1_COFACTOR G1_BYTES (g1_from_random_bytes sqrt) true (denotes_g1 377)
      (fun l Q => g1_candidate_decode true sqrt l Q Hsq) (composite_hasher pedersen) (composite_bytes pedersen ped_bytes) SIG_DOMAIN m x P c) as PL.
    fold (g1_attempt true (composite_hasher pedersen) E of_point G1_COFACTOR sqrt) in PL. unfold ffi_hash_composite.
    change (g1_hash true (composite_hasher pedersen) E of_point G1_COFACTOR sqrt SIG_DOMAIN m x)
      with (rbind (g1_attempt true (composite_hasher pedersen) E of_point G1_COFACTOR sqrt SIG_DOMAIN m x) (fun res => Ok (fst res))).
    set (at_ := g1_attempt true (composite_hasher pedersen) E of_point G1_COFACTOR sqrt SIG_DOMAIN m x) in *. cbn [app] in PL.
    destruct at_ as [[P c]|e|]; cbn [rbind store convert_result_to_bool fst].
    - unfold out_vec. rewrite projective_write_length. change (as_c_int (Z.of_nat 144)) with 144. split.
      + intros H. injection H as <-. exists P, c. split; [apply PL; reflexivity|reflexivity].
      + intros (P' & c' & L & ->). apply PL in L. injection L as <- <-. reflexivity.
    - split; [discriminate|]. intros (P & c & L & _). apply PL in L. discriminate L.
    - split; [discriminate|]. intros (P & c & L & _). apply PL in L. discriminate L.
  Qed.
  Lemma cip22_out m x out :
    ffi_hash_composite_cip22 E of_point sqrt rep_of pedersen m x = Returns true (Some out) <->
    exists inner P c, pedersen m = Ok inner /\ least_success (fun c => direct_xof SIG_DOMAIN (c :: x ++ inner) 64) 48 good P c /\
      out = ((g1_projective_write (rep_of P), 144), c).
  Proof.
    pose proof (fun P c => cip22_ok of_point G1_COFACTOR G1_BYTES (g1_from_random_bytes sqrt) true (denotes_g1 377)
      (fun l Q => g1_candidate_decode true sqrt l Q Hsq) (composite_hasher pedersen) (composite_bytes pedersen ped_bytes) SIG_DOMAIN m x P c) as PL.
    fold (g1_attempt_cip22 true (composite_hasher pedersen) E of_point G1_COFACTOR sqrt) in PL. unfold ffi_hash_composite_cip22.
    set (at_ := g1_attempt_cip22 true (composite_hasher pedersen) E of_point G1_COFACTOR sqrt SIG_DOMAIN m x) in *.
    change (xof (composite_hasher pedersen)) with direct_xof in PL. change (crh (composite_hasher pedersen) SIG_DOMAIN m (hash_bytes G1_BYTES)) with (pedersen m) in PL. rewrite hash_bytes_48 in PL. cbn [app] in PL.
    assert (EQ : forall P c, at_ = Ok (P, c) -> 0 <= c < 255) by (intros P c Hc; apply PL in Hc; destruct Hc as (i & _ & H); apply H).
    destruct at_ as [[P c]|e|]; cbn [rbind store convert_result_to_bool].
    - pose proof (EQ P c eq_refl) as R. unfold out_vec. rewrite projective_write_length, Z.mod_small by lia. change (as_c_int (Z.of_nat 144)) with 144. split.
      + intros H. injection H as <-. destruct (proj1 (PL P c) eq_refl) as (i & H1 & H2). exists i, P, c. split; [exact H1|]. split; [exact H2|reflexivity].
      + intros (i & P' & c' & H1 & L & ->). assert (A : Ok (P, c) = Ok (P', c')) by (apply PL; exists i; split; assumption). injection A as <- <-. reflexivity.
    - split; [discriminate|]. intros (i & P & c & H1 & L & _). assert (A : Err e = Ok (P, c)) by (apply PL; exists i; split; assumption). discriminate A.
    - split; [discriminate|]. intros (i & P & c & H1 & L & _). assert (A : Panic = Ok (P, c)) by (apply PL; exists i; split; assumption). discriminate A.
  Qed.
  Lemma conv_total {A B} (x : result A) (f : A -> result B) : x <> Panic -> (forall a, exists b, f a = Ok b) ->
    exists b o, convert_result_to_bool (store (rbind x f)) = Returns b o /\ (b = true <-> exists v, o = Some v).
  Proof.
    intros H F. destruct x as [a|e|]; [|exists false, None; split; [reflexivity|split; [discriminate|intros [v Hv]; discriminate Hv]]|congruence].
    destruct (F a) as [b Fb]. cbn [rbind]. rewrite Fb. exists true, (Some b). split; [reflexivity|]. split; [exists b; reflexivity|reflexivity].
  Qed.
  Lemma hash_calls_total m x (pop : bool) :
    (exists b o, ffi_hash_direct E of_point sqrt affine_of m pop = Returns b o /\ (b = true <-> exists v, o = Some v)) /\
    (exists b o, ffi_hash_direct_with_attempt E of_point sqrt affine_of m pop = Returns b o /\ (b = true <-> exists v, o = Some v)) /\
    ((forall c, pedersen (c :: x ++ m) <> Panic) ->
     exists b o, ffi_hash_composite E of_point sqrt rep_of pedersen m x = Returns b o /\ (b = true <-> exists v, o = Some v)) /\
    (pedersen m <> Panic ->
     exists b o, ffi_hash_composite_cip22 E of_point sqrt rep_of pedersen m x = Returns b o /\ (b = true <-> exists v, o = Some v)).
  Proof.
    destruct (hash_total true E of_point G1_COFACTOR sqrt pedersen (ffi_domain pop) m [] (ffi_domain_short pop)) as (T1 & _ & _).
    destruct (hash_total true E of_point G1_COFACTOR sqrt pedersen SIG_DOMAIN m x (ffi_domain_short false)) as (_ & T2 & _).
    split; [|split; [|split; intros PT]]; apply conv_total; try assumption.
    - intros P. eexists. reflexivity.
    - apply direct_attempt_total, ffi_domain_short.
    - intros [P c]. eexists. reflexivity.
    - exact (T2 PT).
    - intros P. eexists. reflexivity.
    - apply cip22_attempt_total; [exact PT|apply (ffi_domain_short false)].
    - intros [P c]. eexists. reflexivity.
  Qed.
End HashOut.
Lemma affine_write_inj P P' : g1_affine_write P = g1_affine_write P' -> P = P'.
Proof.
  assert (W : forall x y x' y' b b', fq_write x 0 ++ fq_write y 0 ++ [b] = fq_write x' 0 ++ fq_write y' 0 ++ [b'] -> x = x' /\ y = y' /\ b = b').
  { intros x y x' y' b b' H. apply app_inj_len in H; [|rewrite !fq_write_length; reflexivity]. destruct H as [H1 H].
    apply app_inj_len in H; [|rewrite !fq_write_length; reflexivity]. destruct H as [H2 H3]. injection H3 as <-.
    assert (I : forall u v, fq_write u 0 = fq_write v 0 -> u = v).
    { intros u v Huv. apply (f_equal number) in Huv. rewrite (fq_write_mask0 u), (fq_write_mask0 v), (fq_write_number u), (fq_write_number v) in Huv. apply fq_ext. cbn [tag] in Huv. lia. }
    split; [apply I, H1|]. split; [apply I, H2|reflexivity]. }
  destruct P as [[x y]|], P' as [[x' y']|]; unfold g1_affine_write; intros H; apply W in H; destruct H as (H1 & H2 & H3).
  - rewrite H1, H2. reflexivity.
  - discriminate H3.
  - discriminate H3.
  - reflexivity.
Qed.
Lemma fq_write_num x : number (fq_write x 0) = fqv x.
Proof. rewrite fq_write_mask0, fq_write_number. cbn [tag]. lia. Qed.
Lemma split48 (a b : bytes) : length a = 48%nat -> firstn 48 (a ++ b) = a /\ skipn 48 (a ++ b) = b.
Proof.
  intros H. rewrite firstn_app, skipn_app, H, Nat.sub_diag, firstn_O, skipn_O, app_nil_r.
  rewrite <- H at 1. rewrite firstn_all, <- H, skipn_all. split; reflexivity.
Qed.
Lemma affine_layout P : let w := g1_affine_write P in
  number (firstn 48 w) = fqv (match P with Some (x, _) => x | None => q0 end) /\
  number (firstn 48 (skipn 48 w)) = fqv (match P with Some (_, y) => y | None => q1 end) /\
  skipn 48 (skipn 48 w) = [match P with Some _ => 0 | None => 1 end].
Proof.
  assert (W : forall x y b, let w := fq_write x 0 ++ fq_write y 0 ++ [b] in
    number (firstn 48 w) = fqv x /\ number (firstn 48 (skipn 48 w)) = fqv y /\ skipn 48 (skipn 48 w) = [b]).
  { intros x y b w. subst w. destruct (split48 (fq_write x 0) (fq_write y 0 ++ [b]) (fq_write_length x 0)) as [-> ->].
    destruct (split48 (fq_write y 0) [b] (fq_write_length y 0)) as [-> ->].
    repeat split; apply fq_write_num. }
  destruct P as [[x y]|]; apply W.
Qed.
Lemma projective_layout P : let w := g1_projective_write P in
  number (firstn 48 w) = fqv (jx P) /\ number (firstn 48 (skipn 48 w)) = fqv (jy P) /\ number (skipn 48 (skipn 48 w)) = fqv (jz P).
Proof.
  intros w. subst w. unfold g1_projective_write.
  destruct (split48 (fq_write (jx P) 0) (fq_write (jy P) 0 ++ fq_write (jz P) 0) (fq_write_length _ 0)) as [-> ->].
  destruct (split48 (fq_write (jy P) 0) (fq_write (jz P) 0) (fq_write_length _ 0)) as [-> ->].
  repeat split; apply fq_write_num.
Qed.
Lemma projective_write_inj P P' : g1_projective_write P = g1_projective_write P' -> jx P = jx P' /\ jy P = jy P' /\ jz P = jz P'.
Proof.
  unfold g1_projective_write. intros H. apply app_inj_len in H; [|rewrite !fq_write_length; reflexivity]. destruct H as [H1 H].
  apply app_inj_len in H; [|rewrite !fq_write_length; reflexivity]. destruct H as [H2 H3].
  assert (I : forall u v, fq_write u 0 = fq_write v 0 -> u = v).
  { intros u v Huv. apply (f_equal number) in Huv. rewrite (fq_write_mask0 u), (fq_write_mask0 v), (fq_write_number u), (fq_write_number v) in Huv. apply fq_ext. cbn [tag] in Huv. lia. }
  repeat split; apply I; assumption.
Qed.

(** ** C58 *)
Lemma okinj {A} (a b : A) : Ok a = Ok b -> a = b. Proof. intros H. injection H as ->. reflexivity. Qed.
Lemma bits_of_number (l : list bool) : l = map (fun i => Z.testbit (bits_number_le l) (Z.of_nat i)) (seq 0 (length l)).
Proof.
  induction l as [|b l IH]; [reflexivity|]. cbn [length seq map]. rewrite <- seq_shift, map_map.
  change (bits_number_le (b :: l)) with ((if b then 1 else 0) + 2 * bits_number_le l). f_equal.
  - rewrite Z.add_comm. change (if b then 1 else 0) with (Z.b2z b). symmetry. apply Z.testbit_0_r.
  - rewrite IH at 1. apply map_ext. intros i. rewrite Nat2Z.inj_succ, Z.add_comm. change (if b then 1 else 0) with (Z.b2z b).
    symmetry. apply Z.testbit_succ_r. lia.
Qed.
Lemma digest_bits_eq d : length d = 32%nat /\ is_bytes d = true -> bytes_le_to_bits_le d 256 = digest_bits d.
Proof.
  intros [L B]. destruct (bytes_to_bits_spec d 256 B) as (_ & L' & N). rewrite <- bytes_number_eq, <- bits_number_le_eq in N.
  rewrite (bits_of_number (bytes_le_to_bits_le d 256)), L', N, L. apply map_ext_in. intros i I. apply in_seq in I.
  apply Z.mod_pow2_bits_low. change (Z.of_nat 256) with 256. lia.
Qed.
Section Verify.
  Context (sqrt : fq2 -> option fq2) (in_subgroup : fq2 * fq2 -> bool).
  Context {vkey proof : Type} (vk_deserialize : bytes -> result vkey) (proof_deserialize : bytes -> result proof).
  Context (verify_proof : vkey -> proof -> list Z -> result bool) (blake2 : bytes -> bytes).
  Context (Hlen : forall x, length (blake2 x) = 32%nat /\ is_bytes (blake2 x) = true).
  Notation verify := (ffi_verify sqrt in_subgroup vk_deserialize proof_deserialize verify_proof blake2).
  Notation conv := (epoch_block_try_from sqrt in_subgroup).
  Lemma digests_exist f l : exists m1 m2, enc_first f = Ok m1 /\ enc_last l = Ok m2 /\
    public_inputs g2_coords g2_sum g2_generator blake2 f l = Ok (Some (packed_digests (blake2 m1) (blake2 m2))).
  Proof.
    assert (D : exists m1 m2, enc_first f = Ok m1 /\ enc_last l = Ok m2).
    { eexists _, _. split; apply bits_be_to_bytes_le_ok. }
    destruct D as (m1 & m2 & E1 & E2). exists m1, m2. split; [exact E1|]. split; [exact E2|].
    unfold packed_digests. rewrite <- !digest_bits_eq by apply Hlen.
    apply (public_inputs_value blake2 f l (blake2 m1) (blake2 m2)); [apply Hlen|]. unfold digests_of. rewrite E1, E2. reflexivity.
  Qed.
  Lemma snark_verify_eq vk f l pf m1 m2 : enc_first f = Ok m1 -> enc_last l = Ok m2 ->
    snark_verify verify_proof blake2 vk f l pf =
    rbind (verify_proof vk pf (packed_digests (blake2 m1) (blake2 m2))) (fun ok => if ok then Ok tt else Err VerificationFailed).
  Proof.
    intros E1 E2. destruct (digests_exist f l) as (m1' & m2' & E1' & E2' & P). rewrite E1 in E1'. rewrite E2 in E2'.
    apply okinj in E1', E2'. subst m1' m2'. unfold snark_verify. rewrite P. reflexivity.
  Qed.
  Lemma verify_iff vk pf first last :
    verify vk pf first last = Returns true None <->
    exists f l v q m1 m2, conv first = Ok f /\ conv last = Ok l /\ vk_deserialize vk = Ok v /\ proof_deserialize pf = Ok q /\
      enc_first f = Ok m1 /\ enc_last l = Ok m2 /\ verify_proof v q (packed_digests (blake2 m1) (blake2 m2)) = Ok true.
  Proof.
    unfold ffi_verify. split.
    - destruct (conv first) as [f|e|]; cbn [rbind]; try discriminate.
      destruct (conv last) as [l|e|]; cbn [rbind]; try discriminate.
      destruct (vk_deserialize vk) as [v|e|]; cbn [rbind]; try discriminate.
      destruct (proof_deserialize pf) as [q|e|]; cbn [rbind]; try discriminate.
      destruct (digests_exist f l) as (m1 & m2 & E1 & E2 & _). rewrite (snark_verify_eq v f l q m1 m2 E1 E2).
      destruct (verify_proof v q _) as [[]|e|] eqn:V; cbn [rbind]; try discriminate. intros _.
      exists f, l, v, q, m1, m2. repeat split; try assumption.
    - intros (f & l & v & q & m1 & m2 & H1 & H2 & H3 & H4 & E1 & E2 & V). rewrite H1. cbn [rbind]. rewrite H2. cbn [rbind]. rewrite H3. cbn [rbind].
      rewrite H4. cbn [rbind]. rewrite (snark_verify_eq v f l q m1 m2 E1 E2), V. reflexivity.
  Qed.
  Lemma try_from_total x : conv x <> Panic.
  Proof.
    unfold epoch_block_try_from, read_pubkeys. pose proof (read_keys_not_panic sqrt in_subgroup (Z.to_nat (ef_pubkeys_num x)) (read_serialized_pubkeys (ef_pubkeys x) (ef_pubkeys_num x))).
    destruct (read_keys _ _ _ _); cbn [rbind]; congruence.
  Qed.
  Lemma verify_total vk pf first last : vk_deserialize vk <> Panic -> proof_deserialize pf <> Panic -> (forall v q i, verify_proof v q i <> Panic) ->
    exists b, verify vk pf first last = Returns b None.
  Proof.
    intros H1 H2 H3. unfold ffi_verify. pose proof (try_from_total first). pose proof (try_from_total last).
    destruct (conv first) as [f|e|]; cbn [rbind]; [|exists false; reflexivity|congruence].
    destruct (conv last) as [l|e|]; cbn [rbind]; [|exists false; reflexivity|congruence].
    destruct (vk_deserialize vk) as [v|e|]; cbn [rbind]; [|exists false; reflexivity|congruence].
    destruct (proof_deserialize pf) as [q|e|]; cbn [rbind]; [|exists false; reflexivity|congruence].
    destruct (digests_exist f l) as (m1 & m2 & E1 & E2 & _). rewrite (snark_verify_eq v f l q m1 m2 E1 E2).
    pose proof (H3 v q (packed_digests (blake2 m1) (blake2 m2))).
    destruct (verify_proof v q _) as [[]|e|]; cbn [rbind]; [exists true; reflexivity|exists false; reflexivity|exists false; reflexivity|congruence].
  Qed.
  Lemma verify_same_encodings vk pf first last first' last' f l f' l' :
    conv first = Ok f -> conv last = Ok l -> conv first' = Ok f' -> conv last' = Ok l' ->
    enc_first f = enc_first f' -> enc_last l = enc_last l' -> verify vk pf first last = verify vk pf first' last'.
  Proof.
    intros H1 H2 H1' H2' E E'. unfold ffi_verify. rewrite H1, H2, H1', H2'. cbn [rbind].
    destruct (vk_deserialize vk) as [v|e|]; cbn [rbind]; [|reflexivity|reflexivity].
    destruct (proof_deserialize pf) as [q|e|]; cbn [rbind]; [|reflexivity|reflexivity].
    destruct (digests_exist f l) as (m1 & m2 & E1 & E2 & _). rewrite (snark_verify_eq v f l q m1 m2 E1 E2).
    rewrite E in E1. rewrite E' in E2. rewrite (snark_verify_eq v f' l' q m1 m2 E1 E2). reflexivity.
  Qed.
  Lemma ignored_fields vk pf i rd e pe km kn ns mv rd' e' i2 rd2 e2 pe2 km2 kn2 ns2 mv2 rd2' pe2' :
    verify vk pf (EpochBlockFFI i rd e pe km kn ns mv) (EpochBlockFFI i2 rd2 e2 pe2 km2 kn2 ns2 mv2) =
    verify vk pf (EpochBlockFFI i rd' e' pe km kn ns mv) (EpochBlockFFI i2 rd2' e2 pe2' km2 kn2 ns2 mv2).
  Proof.
    unfold ffi_verify, epoch_block_try_from. cbn [ef_pubkeys ef_pubkeys_num ef_index ef_round ef_epoch_entropy ef_parent_entropy ef_max_non_signers ef_max_validators].
    destruct (read_pubkeys sqrt in_subgroup km kn) as [ks|x|]; cbn [rbind]; [|reflexivity|reflexivity].
    destruct (read_pubkeys sqrt in_subgroup km2 kn2) as [ks2|x|]; cbn [rbind]; [|reflexivity|reflexivity]. reflexivity.
  Qed.
  (** accepting the same packed inputs for other blocks needs a collision of the hash *)
  Lemma packed_binding f l f' l' m1 m2 m1' m2' : enc_first f = Ok m1 -> enc_last l = Ok m2 -> enc_first f' = Ok m1' -> enc_last l' = Ok m2' ->
    packed_digests (blake2 m1) (blake2 m2) = packed_digests (blake2 m1') (blake2 m2') -> blake2 m1 = blake2 m1' /\ blake2 m2 = blake2 m2'.
  Proof.
    intros E1 E2 E1' E2' H. apply (public_inputs_inj blake2 f l f' l' _ _ _ _ Hlen).
    - unfold digests_of. rewrite E1, E2. reflexivity.
    - unfold digests_of. rewrite E1', E2'. reflexivity.
    - destruct (digests_exist f l) as (n1 & n2 & F1 & F2 & ->). destruct (digests_exist f' l') as (n1' & n2' & F1' & F2' & ->).
      rewrite E1 in F1. rewrite E2 in F2. rewrite E1' in F1'. rewrite E2' in F2'. apply okinj in F1, F2, F1', F2'. subst. rewrite H. reflexivity.
  Qed.
End Verify.
Lemma as_c_int_mod n : (2 ^ 32 | as_c_int n - n).
Proof. unfold as_c_int. exists (- ((n + 2 ^ 31) / 2 ^ 32)). pose proof (Z.div_mod (n + 2 ^ 31) (2 ^ 32) ltac:(lia)). lia. Qed.
Lemma q_two_ne : qadd q1 q1 <> q0.
Proof. intros H. apply (f_equal fqv) in H. revert H. vm_compute. discriminate. Qed.
Lemma projective_not_canonical P : jz P <> q0 -> exists P', jac_point P' = jac_point P /\ g1_projective_write P' <> g1_projective_write P.
Proof.
  intros Hz. set (t := qadd q1 q1). pose proof q_two_ne as T. fold t in T.
  assert (TZ : qmul t (jz P) <> q0). { intros H. apply T. apply (f_equal (fun x => qdiv x (jz P))) in H. revert H.
    replace (qdiv (qmul t (jz P)) (jz P)) with t by (field; exact Hz). replace (qdiv q0 (jz P)) with q0 by (field; exact Hz). auto. }
  exists (Jac (qmul (qmul t t) (jx P)) (qmul (qmul t (qmul t t)) (jy P)) (qmul t (jz P))). split.
  - unfold jac_point. cbn [jx jy jz].
    destruct (qeqb (qmul t (jz P)) q0) eqn:E1; [apply qeqb_spec in E1; contradiction|].
    destruct (qeqb (jz P) q0) eqn:E2; [apply qeqb_spec in E2; contradiction|]. f_equal. f_equal; field; auto.
  - intros H. apply projective_write_inj in H. destruct H as (_ & _ & H). cbn [jz] in H. apply Hz.
    assert (X : qsub (qmul t (jz P)) (jz P) = jz P) by (unfold t; ring). rewrite <- X, H. ring.
Qed.
