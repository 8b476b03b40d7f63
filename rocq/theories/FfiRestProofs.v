(** Proofs for C60: keys, aggregates, bytes and plain hashes through the C interface. *)
From Verif Require Import Base Constants Group Field Curve BlsModel BlsSpec BlsProofs CacheModel CacheSpec CacheProofs
  EncodingModel EncodingSpec Blake2 HasherModel HasherSpec HasherProofs PointModel PointProofs HashCurveModel HashCurveSpec HashCurveProofs
  CodecModel CodecSpec CodecProofs FfiModel FfiSpec FfiProofs FfiDataProofs.

Section Sigs.
  Context {pr : pairing}.
  Lemma public_key_iff sk (pk : G2 pr) : ffi_private_key_to_public_key sk = Returns true (Some pk) <-> is_dlog sk pk.
  Proof.
    unfold ffi_private_key_to_public_key, is_dlog. cbn [store convert_result_to_bool]. split; [intros H; injection H as <-; reflexivity|].
    intros ->. reflexivity.
  Qed.
  Lemma aggregate_iff (ss : list (G1 pr)) s : ffi_aggregate_signatures ss = Returns true (Some s) <-> s = total ss.
  Proof.
    unfold ffi_aggregate_signatures. cbn [store convert_result_to_bool]. unfold aggregate_sig. rewrite <- total_gsum.
    split; [intros H; injection H as <-; reflexivity|intros ->; reflexivity].
  Qed.
  Lemma signed_total (H : G1 pr) sks ss (pks : list (G2 pr)) : Forall2 (fun sk s => s = smul sk H) sks ss -> Forall2 is_dlog sks pks ->
    signature_on H (total pks) (total ss).
  Proof.
    intros F. revert pks. induction F as [|sk s sks ss E F IH]; intros pks D; inversion D; subst; cbn [total fold_right].
    - exists 0. split; [symmetry; apply smul_0|symmetry; apply smul_0].
    - destruct (IH _ H4) as (k & K1 & K2). unfold is_dlog in *. unfold total in *. exists (sk + k). rewrite K1, K2, H2. split; symmetry; apply smul_add.
  Qed.
  Lemma aggregate_verifies_c (direct composite cip22 : BlsModel.hasher pr) c f h m x H sks ss pks s pk :
    selected direct composite cip22 c f h -> h SIG_DOMAIN m x = Ok H ->
    Forall2 (fun sk s => ffi_sign_message direct composite cip22 sk m x c f = Returns true (Some s)) sks ss ->
    Forall2 (fun sk pk => ffi_private_key_to_public_key sk = Returns true (Some pk)) sks pks ->
    ffi_aggregate_signatures ss = Returns true (Some s) -> pk = total pks ->
    ffi_verify_signature direct composite cip22 pk m x s c f = Returns true (Some true).
  Proof.
    intros S Hh FS FP A ->. apply aggregate_iff in A. subst s. apply (fverify_true direct composite cip22 c f h); [exact S|].
    exists H. split; [exact Hh|]. apply (signed_total H sks).
    - eapply forall2_imp; [|exact FS]. cbn beta. intros sk s Hs. apply (fsign_value direct composite cip22 c f h) in Hs; [|exact S]. destruct Hs as (H' & E & ->). congruence.
    - eapply forall2_imp; [|exact FP]. intros sk pk. apply public_key_iff.
  Qed.
End Sigs.

(** Bytes. *)
Lemma serialize_iff {T} (ser : T -> bytes) x l n : ffi_serialize ser x = Returns true (Some (l, n)) <-> l = ser x /\ n = as_c_int (Z.of_nat (length (ser x))).
Proof.
  unfold ffi_serialize, out_vec. cbn [store convert_result_to_bool]. split; [intros H; injection H as <- <-; split; reflexivity|]. intros [-> ->]. reflexivity.
Qed.
Lemma deserialize_iff {T} (de : bytes -> result T) l v : ffi_deserialize de l = Returns true (Some v) <-> de l = Ok v.
Proof.
  unfold ffi_deserialize. rewrite convert_store_ok. split; [intros (w & H & E); injection E as ->; exact H|intros H; exists v; split; [exact H|reflexivity]].
Qed.
Lemma deserialize_else {T} (de : bytes -> result T) l : de l <> Panic -> (forall v, de l <> Ok v) -> ffi_deserialize de l = Returns false None.
Proof. intros P N. unfold ffi_deserialize. destruct (de l) as [v|e|]; [destruct (N v eq_refl)|reflexivity|congruence]. Qed.
Lemma private_de_total l : private_key_deserialize l <> Panic.
Proof. unfold private_key_deserialize. destruct (fp_read r 32 l) as [[v q]|]; discriminate. Qed.
Lemma affine_de_total {K} kadd kmul kopp kltb (b : K) sqrt read_flags in_subgroup l :
  affine_deserialize kadd kmul kopp kltb b sqrt read_flags in_subgroup l <> Panic.
Proof.
  unfold affine_deserialize. destruct (read_flags l) as [[[x f] q]|]; [|discriminate].
  destruct f; [discriminate| |]; (destruct (get_point_from_x _ _ _ _ _ _ _ _) as [[[x' y']|]|]; try discriminate; destruct (in_subgroup (x', y')); discriminate).
Qed.

(** The plain hashes. *)
Lemma crh_iff pedersen m n l k : ffi_hash_crh pedersen m n = Returns true (Some (l, k)) <-> pedersen m = Ok l /\ k = as_c_int (Z.of_nat (length l)).
Proof.
  unfold ffi_hash_crh. cbn [composite_hasher crh]. destruct (pedersen m) as [o|e|]; cbn [rbind store convert_result_to_bool]; unfold out_vec.
  - split; [intros H; injection H as <- <-; split; reflexivity|]. intros [H ->]. injection H as ->. reflexivity.
  - split; [discriminate|intros [H _]; discriminate H].
  - split; [discriminate|intros [H _]; discriminate H].
Qed.
Lemma crh_same_point pedersen E of_point sqrt rep_of m m' x n n' : ffi_hash_crh pedersen m n = ffi_hash_crh pedersen m' n' ->
  ffi_hash_composite_cip22 E of_point sqrt rep_of pedersen m x = ffi_hash_composite_cip22 E of_point sqrt rep_of pedersen m' x \/
  exists e e', pedersen m = Err e /\ pedersen m' = Err e' /\
    ffi_hash_composite_cip22 E of_point sqrt rep_of pedersen m x = Returns false None /\ ffi_hash_composite_cip22 E of_point sqrt rep_of pedersen m' x = Returns false None.
Proof.
  unfold ffi_hash_crh, ffi_hash_composite_cip22, g1_attempt_cip22, hash_with_attempt_cip22. cbn [composite_hasher crh].
  destruct (pedersen m) as [o|e|], (pedersen m') as [o'|e'|]; cbn [rbind store convert_result_to_bool]; intros H; try discriminate H.
  - left. unfold out_vec in H. injection H as -> _. reflexivity.
  - right. exists e, e'. repeat split.
  - left. reflexivity.
Qed.
Lemma first_step_spec m n : 0 <= n < 2 ^ 31 -> exists l,
  ffi_hash_direct_first_step m n = Returns true (Some (l, n)) /\ Z.of_nat (length l) = n /\
  (forall i, 0 <= i -> 32 * i < n -> firstn 32 (skipn (Z.to_nat (32 * i)) l) = blake2s (expand_block i n SIG_DOMAIN) (blake2s (root_block n SIG_DOMAIN) m)).
Proof.
  intros Hn. assert (L8 : (length SIG_DOMAIN <= 8)%nat) by (cbn; lia).
  unfold ffi_hash_direct_first_step, hash. cbn [direct_hasher crh xof].
  destruct (xof_spec SIG_DOMAIN (blake2s (root_block n SIG_DOMAIN) m) n L8 ltac:(lia)) as (out & E1 & L & _ & B).
  assert (C : direct_crh SIG_DOMAIN m n = Ok (blake2s (root_block n SIG_DOMAIN) m)).
  { destruct (blocks_used SIG_DOMAIN m n L8 ltac:(lia)) as (root & rest & D & _ & C & _). rewrite C. unfold direct_blocks in D. apply (f_equal (hd [])) in D. cbn [hd] in D.
    rewrite crh_block_eq in D by exact L8. rewrite <- D. reflexivity. }
  rewrite C. cbn [rbind]. rewrite E1. cbn [rbind store convert_result_to_bool]. unfold out_vec. exists out. rewrite L, as_c_int_small by lia. auto.
Qed.
Lemma first_step_hash m n l : 0 <= n < 2 ^ 31 -> ffi_hash_direct_first_step m n = Returns true (Some (l, n)) <-> hash direct_hasher SIG_DOMAIN m n = Ok l.
Proof.
  intros Hn. assert (L8 : (length SIG_DOMAIN <= 8)%nat) by (cbn; lia).
  destruct (direct_hash_ok SIG_DOMAIN m n L8 ltac:(lia)) as (out & E1 & L). unfold ffi_hash_direct_first_step. rewrite E1. cbn [rbind store convert_result_to_bool]. unfold out_vec.
  rewrite L, as_c_int_small by lia. split; intros H; [apply (f_equal (fun y => match y with Returns _ (Some (a, _)) => a | _ => [] end)) in H; cbn in H; rewrite H; reflexivity|].
  apply okinj in H. rewrite H. reflexivity.
Qed.

Lemma message_cases {pr} (m : message pr) : message_ffi_from m = if match m_data m, m_extra m with [], _ | _, [] => true | _, _ => false end then Panic else Ok m.
Proof. destruct m as [[|a d] [|b x] k s]; reflexivity. Qed.
