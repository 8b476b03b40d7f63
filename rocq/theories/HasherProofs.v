From Verif Require Import Base BlsModel BatchProofs BitsModel BitsProofs EncodingModel EncodingProofs Blake2 HasherModel HasherSpec.

(** ** BLAKE2s output *)
Lemma compress_length h b t l : length (compress h b t l) = 8%nat.
Proof. unfold compress. rewrite map_length. apply seq_length. Qed.
Lemma absorb_length h t blocks : length (absorb h t blocks) = 8%nat.
Proof.
  revert h t. induction blocks as [|b rest IH]; intros h t; [apply compress_length|].
  destruct rest; [apply compress_length|]. cbn [absorb]. apply IH.
Qed.
Lemma flat_le_bytes_length n l : length (flat_map (le_bytes n) l) = (n * length l)%nat.
Proof. apply flat_map_len. apply le_bytes_length. Qed.
Lemma flat_le_bytes_is_bytes n l : is_bytes (flat_map (le_bytes n) l) = true.
Proof.
  induction l as [|x l IH]; [reflexivity|]. cbn [flat_map]. unfold is_bytes. rewrite forallb_app.
  apply andb_true_iff. split; [apply le_bytes_is_bytes|exact IH].
Qed.
Lemma blake2s_length (pb msg : bytes) : 0 <= nth 0 pb 0 <= 32 -> Z.of_nat (length (blake2s pb msg)) = nth 0 pb 0.
Proof. intros H. unfold blake2s. rewrite firstn_length, flat_le_bytes_length, absorb_length. change (4 * 8)%nat with 32%nat. set (n := nth 0 pb 0) in *. lia. Qed.
Lemma blake2s_is_bytes pb msg : is_bytes (blake2s pb msg) = true.
Proof. unfold blake2s. apply is_bytes_firstn, flat_le_bytes_is_bytes. Qed.

(** ** Node offsets *)
Lemma land_low_high a b n : 0 <= n -> 0 <= a < 2 ^ n -> Z.land a (Z.shiftl b n) = 0.
Proof.
  intros Hn Ha. apply Z.bits_inj'. intros i Hi. rewrite Z.land_spec, Z.bits_0, Z.shiftl_spec by assumption.
  destruct (Z_lt_le_dec i n) as [L|L].
  - rewrite (Z.testbit_neg_r b) by lia. apply andb_false_r.
  - rewrite <- (Z.mod_small a (2 ^ n)) by assumption. rewrite Z.mod_pow2_bits_high by lia. reflexivity.
Qed.
Lemma lor_low_high a b n : 0 <= n -> 0 <= a < 2 ^ n -> Z.lor a (Z.shiftl b n) = a + b * 2 ^ n.
Proof.
  intros Hn Ha. rewrite <- Z.lxor_lor, <- Z.add_nocarry_lxor by (apply land_low_high; assumption). rewrite Z.shiftl_mul_pow2 by assumption. reflexivity.
Qed.
Lemma offset_value i len : 0 <= i < 2 ^ 32 ->
  xof_digest_length_to_node_offset i len = i + (len mod 2 ^ 16) * 2 ^ 32.
Proof.
  intros Hi. unfold xof_digest_length_to_node_offset. cbv zeta. set (l := len mod 2 ^ 16).
  assert (Hl : 0 <= l < 2 ^ 16) by (apply Z.mod_pos_bound; lia).
  pose proof (Z.mod_pos_bound l 256 ltac:(lia)). pose proof (Z.div_mod l 256 ltac:(lia)).
  rewrite (lor_low_high i) by lia. rewrite lor_low_high; [|lia|].
  - change (2 ^ 40) with (2 ^ 32 * 256). lia.
  - change (2 ^ 40) with (2 ^ 32 * 256). change (2 ^ 32) with 4294967296 in *. lia.
Qed.
Lemma lt_pow2_mod a n : 0 <= n -> (0 <= a < 2 ^ n <-> Z.land a (Z.ones n) = a).
Proof.
  intros Hn. rewrite Z.land_ones by assumption. split.
  - apply Z.mod_small.
  - intros <-. apply Z.mod_pos_bound. apply Z.pow_pos_nonneg; lia.
Qed.
Lemma offset_bound i len : 0 <= i < 2 ^ 48 -> 0 <= xof_digest_length_to_node_offset i len < 2 ^ 48.
Proof.
  intros Hi. unfold xof_digest_length_to_node_offset. cbv zeta. set (l := len mod 2 ^ 16).
  assert (Hl : 0 <= l < 2 ^ 16) by (apply Z.mod_pos_bound; lia).
  pose proof (Z.mod_pos_bound l 256 ltac:(lia)).
  assert (Hd : 0 <= l / 256 < 256) by (split; [apply Z.div_pos; lia|apply Z.div_lt_upper_bound; lia]).
  apply lt_pow2_mod; [lia|]. rewrite !Z.land_lor_distr_l. f_equal; [f_equal|]; apply lt_pow2_mod; try lia;
    rewrite Z.shiftl_mul_pow2 by lia; change (2 ^ 48) with (2 ^ 40 * 256); change (2 ^ 40) with (2 ^ 32 * 256); nia.
Qed.

(** ** Parameter blocks *)
Lemma pad8_domain8 d : (length d <= 8)%nat -> pad8 d = domain8 d.
Proof.
  intros H. unfold pad8, domain8. rewrite firstn_app, firstn_all2 by assumption. f_equal.
  assert (G : forall n m : nat, (n <= m)%nat -> firstn n (repeat 0 m) = repeat 0 n).
  { induction n as [|n IH]; intros [|m] L; try reflexivity; [lia|]. cbn [repeat]. rewrite firstn_cons, IH by lia. reflexivity. }
  apply G. lia.
Qed.
Lemma pad8_length d : length (pad8 d) = 8%nat.
Proof. unfold pad8. rewrite firstn_length, app_length, repeat_length. lia. Qed.
Lemma params_crh_ok d len : (length d <= 8)%nat -> params_ok (crh_params d len) = true.
Proof.
  intros H. unfold params_ok, crh_params. cbn [hash_length node_offset personal].
  pose proof (offset_bound 0 len ltac:(lia)). rewrite !andb_true_iff, !Z.leb_le, Z.ltb_lt. lia.
Qed.
Lemma params_crh_bad d len : (8 < length d)%nat -> params_ok (crh_params d len) = false.
Proof.
  intros H. unfold params_ok, crh_params. cbn [personal]. apply andb_false_iff. right. apply Z.leb_gt. lia.
Qed.
Lemma num_hashes_bounds len : 0 <= len -> len <= 32 * num_hashes len < len + 32.
Proof. intros H. unfold num_hashes. pose proof (Z.div_mod (len + 32 - 1) 32 ltac:(lia)).
  pose proof (Z.mod_pos_bound (len + 32 - 1) 32 ltac:(lia)). lia. Qed.
Lemma xof_hash_length d i len : 0 <= len -> 0 <= i < num_hashes len ->
  hash_length (xof_params d i len) = Z.min 32 (len - 32 * i) /\ 1 <= Z.min 32 (len - 32 * i) <= 32.
Proof.
  intros Hl Hi. pose proof (num_hashes_bounds len Hl). unfold xof_params. cbn [hash_length].
  pose proof (Z.div_mod len 32 ltac:(lia)). pose proof (Z.mod_pos_bound len 32 ltac:(lia)).
  destruct (Z.eqb_spec i (num_hashes len - 1)), (Z.eqb_spec (len mod 32) 0); cbn [andb negb]; lia.
Qed.
Lemma params_xof_ok d i len : (length d <= 8)%nat -> 0 <= len -> 0 <= i < num_hashes len -> i < 2 ^ 48 ->
  params_ok (xof_params d i len) = true.
Proof.
  intros H Hl Hi Hi'. unfold params_ok. destruct (xof_hash_length d i len Hl Hi) as [-> B].
  cbn [xof_params node_offset personal]. pose proof (offset_bound i len ltac:(lia)).
  rewrite !andb_true_iff, !Z.leb_le, Z.ltb_lt. lia.
Qed.

Lemma le_bytes_app n m v : le_bytes (n + m) v = le_bytes n v ++ le_bytes m (v / 256 ^ Z.of_nat n).
Proof.
  revert v. induction n as [|n IH]; intros v.
  - cbn [Nat.add le_bytes app]. change (256 ^ Z.of_nat 0) with 1. rewrite Z.div_1_r. reflexivity.
  - cbn [Nat.add le_bytes app]. rewrite IH, Nat2Z.inj_succ, Z.pow_succ_r by lia.
    rewrite Z.div_div by (try apply Z.pow_pos_nonneg; lia). reflexivity.
Qed.
Lemma le_bytes_mod n v : le_bytes n (v mod 256 ^ Z.of_nat n) = le_bytes n v.
Proof.
  apply le_val_inj; try apply le_bytes_is_bytes; [rewrite !le_bytes_length; reflexivity|].
  rewrite !le_bytes_val. apply Zmod_mod.
Qed.
Lemma offset_bytes i len : 0 <= i < 2 ^ 32 ->
  le_bytes 6 (xof_digest_length_to_node_offset i len) = le_bytes 4 i ++ le_bytes 2 len.
Proof.
  intros Hi. rewrite offset_value by assumption. rewrite (le_bytes_app 4 2). change (256 ^ Z.of_nat 4) with (2 ^ 32). f_equal.
  - rewrite <- (le_bytes_mod 4), <- (le_bytes_mod 4 i). change (256 ^ Z.of_nat 4) with (2 ^ 32). rewrite Z_mod_plus_full. reflexivity.
  - rewrite Z.div_add by lia. rewrite Z.div_small by assumption. cbn [Z.add].
    change (2 ^ 16) with (256 ^ Z.of_nat 2). apply le_bytes_mod.
Qed.
Lemma crh_block_eq d len : (length d <= 8)%nat -> param_block (crh_params d len) = root_block len d.
Proof.
  intros H. unfold param_block, crh_params, root_block. cbn [hash_length fanout max_depth max_leaf_length node_offset inner_hash_length personal].
  rewrite offset_bytes by lia. rewrite pad8_domain8 by assumption. reflexivity.
Qed.
Lemma xof_block_eq d i len : (length d <= 8)%nat -> 0 <= len -> 0 <= i < num_hashes len -> i < 2 ^ 32 ->
  param_block (xof_params d i len) = expand_block i len d.
Proof.
  intros H Hl Hi Hi'. unfold param_block, expand_block. destruct (xof_hash_length d i len Hl Hi) as [-> _].
  cbn [xof_params fanout max_depth max_leaf_length node_offset inner_hash_length personal].
  rewrite offset_bytes by lia. rewrite pad8_domain8 by assumption. cbn [le_bytes app].
  replace (i / 65536) with (i / 256 / 256) by (rewrite Z.div_div by lia; reflexivity).
  replace (i / 16777216) with (i / 256 / 256 / 256) by (rewrite !Z.div_div by lia; reflexivity). reflexivity.
Qed.

(** ** The XOF *)
Lemma xof_ok d m len : (length d <= 8)%nat -> 0 <= len <= 2 ^ 53 ->
  direct_xof d m len =
    Ok (flat_map (fun i => blake2s (param_block (xof_params d (Z.of_nat i) len)) m) (seq 0 (Z.to_nat (num_hashes len)))).
Proof.
  intros Hd Hl. unfold direct_xof. destruct (Z.ltb_spec 8 (Z.of_nat (length d))); [lia|].
  rewrite (mapM_ok _ (fun i => blake2s (param_block (xof_params d (Z.of_nat i) len)) m)).
  - cbn [rbind]. rewrite flat_map_concat_map. reflexivity.
  - apply Forall_forall. intros i Hi. apply in_seq in Hi. unfold run_params. rewrite params_xof_ok; try lia; [reflexivity|].
    pose proof (num_hashes_bounds len ltac:(lia)). change (2 ^ 53) with (2 ^ 48 * 32) in Hl. lia.
Qed.
Lemma xof_too_large d m len : (8 < length d)%nat -> direct_xof d m len = Err (DomainTooLarge (Z.of_nat (length d))).
Proof. intros H. unfold direct_xof. destruct (Z.ltb_spec 8 (Z.of_nat (length d))); [reflexivity|lia]. Qed.

Lemma block_length d i len m : 0 <= len -> 0 <= i < num_hashes len ->
  Z.of_nat (length (blake2s (param_block (xof_params d i len)) m)) = Z.min 32 (len - 32 * i).
Proof.
  intros Hl Hi. destruct (xof_hash_length d i len Hl Hi) as [E B].
  rewrite blake2s_length; unfold param_block; cbn [app nth]; lia.
Qed.
Lemma xof_prefix_length d m len k : 0 <= len -> (k <= Z.to_nat (num_hashes len))%nat ->
  Z.of_nat (length (flat_map (fun i => blake2s (param_block (xof_params d (Z.of_nat i) len)) m) (seq 0 k))) = Z.min len (32 * Z.of_nat k).
Proof.
  intros Hl. induction k as [|k IH]; intros Hk; [cbn; lia|].
  rewrite seq_S, flat_map_app, app_length, Nat2Z.inj_add, IH by lia. cbn [flat_map Nat.add]. rewrite app_nil_r, block_length by lia.
  pose proof (num_hashes_bounds len Hl). lia.
Qed.
Lemma flat_map_is_bytes {A} (f : A -> bytes) l : (forall x, is_bytes (f x) = true) -> is_bytes (flat_map f l) = true.
Proof.
  intros H. induction l as [|x l IH]; [reflexivity|]. cbn [flat_map]. unfold is_bytes. rewrite forallb_app.
  apply andb_true_iff. split; [apply H|exact IH].
Qed.
Lemma xof_spec d m len : (length d <= 8)%nat -> 0 <= len < 2 ^ 37 ->
  exists out, direct_xof d m len = Ok out /\ Z.of_nat (length out) = len /\ is_bytes out = true /\
    forall i, 0 <= i -> 32 * i < len ->
      firstn 32 (skipn (Z.to_nat (32 * i)) out) = blake2s (expand_block i len d) m.
Proof.
  intros Hd Hl. rewrite xof_ok by lia. eexists. split; [reflexivity|].
  pose proof (num_hashes_bounds len ltac:(lia)) as B. split; [|split].
  - rewrite xof_prefix_length by lia. lia.
  - apply flat_map_is_bytes. intros x. apply blake2s_is_bytes.
  - intros i Hi Hil. set (f := fun i : nat => _).
    assert (Hin : i < num_hashes len) by lia.
    assert (HS : seq 0 (Z.to_nat (num_hashes len)) = seq 0 (Z.to_nat i) ++ Z.to_nat i :: seq (S (Z.to_nat i)) (Z.to_nat (num_hashes len) - S (Z.to_nat i))).
    { replace (Z.to_nat (num_hashes len)) with (Z.to_nat i + S (Z.to_nat (num_hashes len) - S (Z.to_nat i)))%nat at 1 by lia.
      rewrite seq_app. reflexivity. }
    rewrite HS, flat_map_app. cbn [flat_map].
    assert (L : length (flat_map f (seq 0 (Z.to_nat i))) = Z.to_nat (32 * i)).
    { apply Nat2Z.inj. unfold f. rewrite xof_prefix_length by lia. lia. }
    rewrite skipn_app, L, Nat.sub_diag, skipn_O, skipn_all2 by lia. cbn [app].
    assert (LB : Z.of_nat (length (f (Z.to_nat i))) = Z.min 32 (len - 32 * i)).
    { unfold f. rewrite Z2Nat.id by lia. apply block_length; lia. }
    assert (Ef : f (Z.to_nat i) = blake2s (expand_block i len d) m).
    { unfold f. rewrite Z2Nat.id by lia. rewrite xof_block_eq by lia. reflexivity. }
    rewrite <- Ef. destruct (Z_lt_le_dec (len - 32 * i) 32) as [C|C].
    + replace (Z.to_nat (num_hashes len) - S (Z.to_nat i))%nat with O by lia. cbn [seq flat_map]. rewrite app_nil_r.
      apply firstn_all2. lia.
    + rewrite firstn_app. replace (32 - length (f (Z.to_nat i)))%nat with O by lia. rewrite firstn_O, app_nil_r.
      apply firstn_all2. lia.
Qed.

(** ** Hashers *)
Lemma direct_crh_ok d m len : (length d <= 8)%nat -> direct_crh d m len = Ok (blake2s (root_block len d) m).
Proof. intros H. unfold direct_crh, run_params. rewrite params_crh_ok, crh_block_eq by assumption. reflexivity. Qed.
Lemma direct_crh_panic d m len : (8 < length d)%nat -> direct_crh d m len = Panic.
Proof. intros H. unfold direct_crh, run_params. rewrite params_crh_bad by assumption. reflexivity. Qed.
Lemma direct_hash_ok d m len : (length d <= 8)%nat -> 0 <= len < 2 ^ 37 ->
  exists out, hash direct_hasher d m len = Ok out /\ Z.of_nat (length out) = len.
Proof.
  intros H Hl. unfold hash, direct_hasher. cbn [crh xof]. rewrite direct_crh_ok by assumption. cbn [rbind].
  destruct (xof_spec d (blake2s (root_block len d) m) len H Hl) as (o & E & L & _). exists o. auto.
Qed.
Lemma direct_hash_panic d m len : (8 < length d)%nat -> hash direct_hasher d m len = Panic.
Proof. intros H. unfold hash, direct_hasher. cbn [crh xof]. rewrite direct_crh_panic by assumption. reflexivity. Qed.
Lemma composite_hash_err ped d m len c : (8 < length d)%nat -> ped m = Ok c ->
  hash (composite_hasher ped) d m len = Err (DomainTooLarge (Z.of_nat (length d))).
Proof. intros H E. unfold hash, composite_hasher. cbn [crh xof]. rewrite E. cbn [rbind]. apply xof_too_large, H. Qed.
Lemma composite_hash_ok ped d m len c : (length d <= 8)%nat -> 0 <= len < 2 ^ 37 -> ped m = Ok c ->
  exists out, hash (composite_hasher ped) d m len = Ok out /\ Z.of_nat (length out) = len.
Proof.
  intros H Hl E. unfold hash, composite_hasher. cbn [crh xof]. rewrite E. cbn [rbind].
  destruct (xof_spec d c len H Hl) as (o & Eo & L & _). exists o. auto.
Qed.

(** ** Injectivity of parameter blocks *)
Lemma domain8_length d : (length d <= 8)%nat -> length (domain8 d) = 8%nat.
Proof. intros H. unfold domain8. rewrite app_length, repeat_length. lia. Qed.
Lemma digits2 x y : 0 <= x < 2 ^ 16 -> 0 <= y < 2 ^ 16 -> x mod 256 = y mod 256 -> (x / 256) mod 256 = (y / 256) mod 256 -> x = y.
Proof.
  intros Hx Hy H0 H1. change (2 ^ 16) with 65536 in *.
  rewrite !(Z.mod_small (_ / 256)) in H1 by (split; [apply Z.div_pos|apply Z.div_lt_upper_bound]; lia).
  rewrite (Z.div_mod x 256), (Z.div_mod y 256) by lia. congruence.
Qed.
Lemma digits4 x y : 0 <= x < 2 ^ 32 -> 0 <= y < 2 ^ 32 -> x mod 256 = y mod 256 -> (x / 256) mod 256 = (y / 256) mod 256 ->
  (x / 65536) mod 256 = (y / 65536) mod 256 -> (x / 16777216) mod 256 = (y / 16777216) mod 256 -> x = y.
Proof.
  intros Hx Hy H0 H1 H2 H3. change (2 ^ 32) with 4294967296 in *.
  rewrite !(Z.mod_small (_ / 16777216)) in H3 by (split; [apply Z.div_pos|apply Z.div_lt_upper_bound]; lia).
  assert (D : forall z, z = z mod 256 + 256 * ((z / 256) mod 256) + 65536 * ((z / 65536) mod 256) + 16777216 * (z / 16777216)).
  { intros z. rewrite (Z.div_mod z 256) at 1 by lia. rewrite (Z.div_mod (z / 256) 256) at 1 by lia.
    rewrite Z.div_div by lia. change (256 * 256) with 65536. rewrite (Z.div_mod (z / 65536) 256) at 1 by lia.
    rewrite Z.div_div by lia. change (65536 * 256) with 16777216. ring. }
  rewrite (D x), (D y), H0, H1, H2, H3. reflexivity.
Qed.
Lemma root_block_inj len len' d d' : (length d <= 8)%nat -> (length d' <= 8)%nat -> 0 <= len < 2 ^ 16 -> 0 <= len' < 2 ^ 16 ->
  root_block len d = root_block len' d' -> len = len' /\ domain8 d = domain8 d'.
Proof.
  intros Hd Hd' Hl Hl' H. unfold root_block in H. apply app_inj_len in H; [|reflexivity]. destruct H as [H D].
  split; [|exact D]. apply digits2; try assumption.
  - apply (f_equal (fun l => nth 12 l 0)) in H. exact H.
  - apply (f_equal (fun l => nth 13 l 0)) in H. exact H.
Qed.
Lemma expand_block_inj i i' len len' d d' : (length d <= 8)%nat -> (length d' <= 8)%nat ->
  0 <= i < 2 ^ 32 -> 0 <= i' < 2 ^ 32 -> 0 <= len < 2 ^ 16 -> 0 <= len' < 2 ^ 16 ->
  expand_block i len d = expand_block i' len' d' -> i = i' /\ len = len' /\ domain8 d = domain8 d'.
Proof.
  intros Hd Hd' Hi Hi' Hl Hl' H. unfold expand_block in H. apply app_inj_len in H; [|reflexivity]. destruct H as [H D].
  split; [|split; [|exact D]].
  - apply digits4; try assumption.
    + apply (f_equal (fun l => nth 8 l 0)) in H. exact H.
    + apply (f_equal (fun l => nth 9 l 0)) in H. exact H.
    + apply (f_equal (fun l => nth 10 l 0)) in H. exact H.
    + apply (f_equal (fun l => nth 11 l 0)) in H. exact H.
  - apply digits2; try assumption.
    + apply (f_equal (fun l => nth 12 l 0)) in H. exact H.
    + apply (f_equal (fun l => nth 13 l 0)) in H. exact H.
Qed.
Lemma root_not_expand i len len' d d' : root_block len d <> expand_block i len' d'.
Proof. intros H. apply (f_equal (fun l => nth 2 l 0)) in H. discriminate. Qed.

(** ** Statements about the code's parameters *)
Lemma crh_params_inj d d' len len' : (length d <= 8)%nat -> (length d' <= 8)%nat -> 0 <= len < 2 ^ 16 -> 0 <= len' < 2 ^ 16 ->
  param_block (crh_params d len) = param_block (crh_params d' len') -> len = len' /\ domain8 d = domain8 d'.
Proof. intros Hd Hd' Hl Hl'. rewrite !crh_block_eq by assumption. apply root_block_inj; assumption. Qed.
Lemma xof_params_inj d d' i i' len len' : (length d <= 8)%nat -> (length d' <= 8)%nat ->
  0 <= len < 2 ^ 16 -> 0 <= len' < 2 ^ 16 -> 0 <= i < num_hashes len -> 0 <= i' < num_hashes len' ->
  param_block (xof_params d i len) = param_block (xof_params d' i' len') -> i = i' /\ len = len' /\ domain8 d = domain8 d'.
Proof.
  intros Hd Hd' Hl Hl' Hi Hi'. pose proof (num_hashes_bounds len ltac:(lia)). pose proof (num_hashes_bounds len' ltac:(lia)).
  rewrite !xof_block_eq by lia. apply expand_block_inj; (assumption || lia).
Qed.
Lemma crh_not_xof d d' i len len' : param_block (crh_params d len) <> param_block (xof_params d' i len').
Proof.
  intros H. apply (f_equal (fun l => nth 2 l 0)) in H. unfold param_block, crh_params, xof_params in H.
  cbn [fanout app nth hash_length] in H. discriminate.
Qed.
Lemma length_truncated d len m : (length d <= 8)%nat ->
  param_block (crh_params d (len + 2 ^ 16)) = param_block (crh_params d len) /\
  direct_crh d m (len + 2 ^ 16) = direct_crh d m len.
Proof.
  intros H. assert (E : crh_params d (len + 2 ^ 16) = crh_params d len).
  { unfold crh_params, xof_digest_length_to_node_offset. f_equal. cbv zeta.
    replace (len + 2 ^ 16) with (len + 1 * 2 ^ 16) by ring. rewrite Z_mod_plus_full. reflexivity. }
  unfold direct_crh. rewrite E. split; reflexivity.
Qed.
Lemma xof_length_truncated d i len : 0 <= len -> 0 <= 32 * i -> 32 * i + 32 <= len ->
  param_block (xof_params d i (len + 2 ^ 16)) = param_block (xof_params d i len).
Proof.
  intros Hl Hi Hi'. pose proof (num_hashes_bounds len Hl). pose proof (num_hashes_bounds (len + 2 ^ 16) ltac:(lia)).
  destruct (xof_hash_length d i len Hl ltac:(lia)) as [E1 _].
  destruct (xof_hash_length d i (len + 2 ^ 16) ltac:(lia) ltac:(lia)) as [E2 _].
  unfold param_block. rewrite E1, E2. cbn [xof_params fanout max_depth max_leaf_length node_offset inner_hash_length personal].
  rewrite !Z.min_l by lia. unfold xof_digest_length_to_node_offset. cbv zeta.
  replace (len + 2 ^ 16) with (len + 1 * 2 ^ 16) by ring. rewrite Z_mod_plus_full. reflexivity.
Qed.
Lemma same_padding_same_hash d d' m len : (length d <= 8)%nat -> (length d' <= 8)%nat -> 0 <= len <= 2 ^ 53 ->
  domain8 d = domain8 d' -> hash direct_hasher d m len = hash direct_hasher d' m len.
Proof.
  intros Hd Hd' Hl E. unfold hash, direct_hasher. cbn [crh xof]. rewrite !direct_crh_ok by assumption. cbn [rbind].
  assert (ER : root_block len d = root_block len d') by (unfold root_block; rewrite E; reflexivity). rewrite ER.
  rewrite !xof_ok by assumption. f_equal. apply flat_map_ext. intros i. f_equal.
  unfold param_block. cbn [xof_params hash_length fanout max_depth max_leaf_length node_offset inner_hash_length personal].
  rewrite !pad8_domain8, E by assumption. reflexivity.
Qed.

(** The personal field of every parameter block is the (padded) domain. *)
Lemma block_personal q : skipn 24 (param_block q) = pad8 (personal q).
Proof.
  unfold param_block.
  replace (([hash_length q; 0; fanout q; max_depth q] ++ le_bytes 4 (max_leaf_length q) ++ le_bytes 6 (node_offset q) ++
    [0; inner_hash_length q] ++ repeat 0 8 ++ pad8 (personal q)))
    with (([hash_length q; 0; fanout q; max_depth q] ++ le_bytes 4 (max_leaf_length q) ++ le_bytes 6 (node_offset q) ++
    [0; inner_hash_length q] ++ repeat 0 8) ++ pad8 (personal q)) by (rewrite <- !app_assoc; reflexivity).
  rewrite skipn_app, skipn_all2; rewrite !app_length, !le_bytes_length; cbn [length Nat.add repeat Nat.sub]; [reflexivity|lia].
Qed.
Lemma direct_blocks_personal d len pb : In pb (direct_blocks d len) -> skipn 24 pb = pad8 d.
Proof.
  unfold direct_blocks, xof_blocks. intros [<-|H]; [apply block_personal|].
  destruct (8 <? Z.of_nat (length d)); [destruct H|]. apply in_map_iff in H. destruct H as [i [<- _]]. apply block_personal.
Qed.
Lemma domain_separation d d' len len' pb pb' : pad8 d <> pad8 d' ->
  In pb (direct_blocks d len) -> In pb' (direct_blocks d' len') -> pb <> pb'.
Proof.
  intros H Hp Hp' E. apply direct_blocks_personal in Hp, Hp'. apply H. rewrite <- Hp, <- Hp', E. reflexivity.
Qed.
Lemma blake2_out_length x : length (blake2_out x) = 32%nat /\ is_bytes (blake2_out x) = true.
Proof.
  split; [|apply blake2s_is_bytes]. apply Nat2Z.inj. unfold blake2_out. rewrite blake2s_length; reflexivity || (cbn; lia).
Qed.

(** The listed parameter blocks are the ones [hash] uses, in order. *)
Lemma blocks_used d m len : (length d <= 8)%nat -> 0 <= len <= 2 ^ 53 ->
  exists root rest, direct_blocks d len = root :: rest /\ xof_blocks d len = rest /\
    direct_crh d m len = Ok (blake2s root m) /\ direct_xof d m len = Ok (flat_map (fun pb => blake2s pb m) rest) /\
    hash direct_hasher d m len = Ok (flat_map (fun pb => blake2s pb (blake2s root m)) rest).
Proof.
  intros H Hl. unfold direct_blocks. eexists _, _. split; [reflexivity|]. split; [reflexivity|].
  unfold hash, direct_hasher. cbn [crh xof]. rewrite direct_crh_ok, crh_block_eq by assumption. cbn [rbind].
  rewrite !xof_ok by assumption. unfold xof_blocks. destruct (Z.ltb_spec 8 (Z.of_nat (length d))); [lia|].
  rewrite !flat_map_concat_map, !map_map. repeat split; reflexivity.
Qed.
