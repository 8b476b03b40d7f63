(** C49-C55, C57, C58: the C interface. *)
From Verif Require Import Base Constants Group Field Curve BlsModel BlsSpec CacheModel CacheSpec
  EncodingModel EncodingSpec HasherModel PointModel PointProofs HashCurveModel HashCurveSpec CodecModel CodecSpec FfiModel FfiSpec FfiProofs FfiDataProofs.

(** ** C49 *)
Theorem C49_sign_then_verify : forall pr (direct composite cip22 : BlsModel.hasher pr) c f sk m x s,
  ffi_sign_message direct composite cip22 sk m x c f = Returns true (Some s) ->
  ffi_verify_signature direct composite cip22 (to_public sk) m x s c f = Returns true (Some true).
Proof. intros. apply sign_verify. assumption. Qed.
Theorem C49_sign_value : forall pr (direct composite cip22 : BlsModel.hasher pr) c f h sk m x s,
  selected direct composite cip22 c f h ->
  ffi_sign_message direct composite cip22 sk m x c f = Returns true (Some s) <-> exists H, h SIG_DOMAIN m x = Ok H /\ s = smul sk H.
Proof. intros. apply fsign_value. assumption. Qed.
Theorem C49_sign_true_writes : forall pr (direct composite cip22 : BlsModel.hasher pr) c f sk m x out,
  ffi_sign_message direct composite cip22 sk m x c f = Returns true out ->
  exists h s, selected direct composite cip22 c f h /\ out = Some s /\ exists H, h SIG_DOMAIN m x = Ok H /\ s = smul sk H.
Proof. intros pr d c' f'. apply fsign_true. Qed.
Theorem C49_sign_false_writes_nothing : forall pr (direct composite cip22 : BlsModel.hasher pr) c f sk m x out,
  ffi_sign_message direct composite cip22 sk m x c f = Returns false out -> out = None.
Proof. intros pr d c' f'. apply fsign_unwritten. Qed.
Theorem C49_verify_selected : forall pr (direct composite cip22 : BlsModel.hasher pr) c f h pk m x s,
  selected direct composite cip22 c f h ->
  ffi_verify_signature direct composite cip22 pk m x s c f = Returns true (Some true) <-> valid_in h SIG_DOMAIN m x pk s.
Proof. intros. apply fverify_true. assumption. Qed.
(** composite clear and cip22 set: nothing is signed, nothing is verified, nothing is written *)
Theorem C49_rejected_flags : forall pr (direct composite cip22 : BlsModel.hasher pr) sk pk m x s ms,
  ffi_sign_message direct composite cip22 sk m x false true = Returns false None /\
  ffi_verify_signature direct composite cip22 pk m x s false true = Returns false None /\
  ffi_batch_verify_signature direct composite cip22 ms false true = Returns false None.
Proof. intros. repeat split. Qed.
(** A signature made under one flag pair passes under another only where the two hashes coincide. *)
Theorem C49_cross_flags : forall pr (direct composite cip22 : BlsModel.hasher pr) c f c' f' sk m x m' x' s,
  ~ (r | sk) -> ffi_sign_message direct composite cip22 sk m x c f = Returns true (Some s) ->
  ffi_verify_signature direct composite cip22 (to_public sk) m' x' s c' f' = Returns true (Some true) <->
  exists h h' H, selected direct composite cip22 c f h /\ selected direct composite cip22 c' f' h' /\
    h SIG_DOMAIN m x = Ok H /\ h' SIG_DOMAIN m' x' = Ok H.
Proof. intros. apply cross_flags; assumption. Qed.
Theorem C49_pop_round_trip : forall pr (direct : BlsModel.hasher pr) sk m s,
  ffi_sign_pop direct sk m = Returns true (Some s) -> ffi_verify_pop direct (to_public sk) m s = Returns true (Some true).
Proof. intros. apply fpop_roundtrip; assumption. Qed.

(** ** C50 *)
Theorem C50_verify_signature : forall pr (direct composite cip22 : BlsModel.hasher pr) c f h pk m x s,
  selected direct composite cip22 c f h ->
  (ffi_verify_signature direct composite cip22 pk m x s c f = Panics <-> h SIG_DOMAIN m x = Panic) /\
  (h SIG_DOMAIN m x <> Panic -> exists b, ffi_verify_signature direct composite cip22 pk m x s c f = Returns true (Some b) /\
    (b = true <-> valid_in h SIG_DOMAIN m x pk s)).
Proof. intros. apply fverify_spec. assumption. Qed.
Theorem C50_verify_pop : forall pr (direct : BlsModel.hasher pr) pk m s,
  (ffi_verify_pop direct pk m s = Panics <-> direct POP_DOMAIN m [] = Panic) /\
  (direct POP_DOMAIN m [] <> Panic -> exists b, ffi_verify_pop direct pk m s = Returns true (Some b) /\
    (b = true <-> valid_in direct POP_DOMAIN m [] pk s)).
Proof. intros. apply fpop_spec; assumption. Qed.
Theorem C50_batch_verify_signature : forall pr (direct composite cip22 : BlsModel.hasher pr) c f h (ms : list (message pr)),
  selected direct composite cip22 c f h -> (forall m, In m ms -> h SIG_DOMAIN (m_data m) (m_extra m) <> Panic) ->
  exists b, ffi_batch_verify_signature direct composite cip22 ms c f = Returns true (Some b) /\
    (b = true <-> exists Hs ss, Forall2 (fun m H => h SIG_DOMAIN (m_data m) (m_extra m) = Ok H) ms Hs /\
      signatures_on Hs (map m_key ms) ss /\ total (map m_sig ms) = total ss).
Proof. intros. apply fbatch_spec; assumption. Qed.
(** The hash-to-curve functions behind the three flag pairs panic in neither domain, unless the Pedersen hash they
    start with panics on its input (C61: exactly when that input is longer than 19530 bytes). *)
Theorem C50_hashes_do_not_panic : forall compat (E : grp) of_point cofactor sqrt pedersen (pop : bool) m x,
  let d := if pop then POP_DOMAIN else SIG_DOMAIN in
  g1_hash compat direct_hasher E of_point cofactor sqrt d m x <> Panic /\
  ((forall c, pedersen (c :: x ++ m) <> Panic) -> g1_hash compat (composite_hasher pedersen) E of_point cofactor sqrt d m x <> Panic) /\
  (pedersen m <> Panic -> g1_hash_cip22 compat (composite_hasher pedersen) E of_point cofactor sqrt d m x <> Panic).
Proof. intros compat E of_point cofactor sqrt pedersen pop m x. apply hash_total, (ffi_domain_short pop). Qed.

(** ** C51 *)
(** [strict_ready]: the random bytes are those [Batch::verify] draws and the hash does not panic. *)
Theorem C51_slots : forall pr (direct composite cip22 : BlsModel.hasher pr) c f h bs,
  selected direct composite cip22 c f h -> Forall (strict_ready h) bs ->
  exists slots, ffi_batch_verify_strict direct composite cip22 bs c f = Returns (forallb id slots) (Some slots) /\
    Forall2 (fun q s => s = true <-> combined_valid h (bm_data (fst q)) (bm_extra (fst q)) (bm_keys (fst q)) (bm_sigs (fst q)) (snd q)) bs slots.
Proof. intros. apply strict_spec; assumption. Qed.
Theorem C51_complete : forall pr (direct composite cip22 : BlsModel.hasher pr) c f h bs,
  selected direct composite cip22 c f h -> Forall (strict_ready h) bs ->
  Forall (fun q => pair_ok h (fst q) /\ is_ok (h SIG_DOMAIN (bm_data (fst q)) (bm_extra (fst q))) = true) bs ->
  ffi_batch_verify_strict direct composite cip22 bs c f = Returns true (Some (repeat true (length bs))).
Proof. intros pr d c' f' c f h bs S0 R V. apply (strict_complete d c' f' c f h); assumption. Qed.
(** A message with a bad pair passes for at most a 2^-(8k) fraction of the draws, k >= 16 the bytes per pair. *)
Theorem C51_sound : forall pr (direct composite cip22 : BlsModel.hasher pr) c f h b (L : list (list bytes)),
  selected direct composite cip22 c f h -> Z.of_nat (pair_count b) <= usize_max -> ~ pair_ok h b -> NoDup L ->
  (forall rnd, In rnd L -> strict_draw (pair_count b) rnd /\ exists out, ffi_batch_verify_strict direct composite cip22 [(b, rnd)] c f = Returns true out) ->
  Z.of_nat (length L) * 2 ^ (8 * ((128 + Z.log2_up (Z.of_nat (pair_count b)) + 7) / 8)) <=
  2 ^ (8 * ((128 + Z.log2_up (Z.of_nat (pair_count b)) + 7) / 8) * Z.of_nat (pair_count b)).
Proof. intros pr d c' f' c f h b L S0 Hn V ND A. apply (strict_sound d c' f' c f h b L); assumption. Qed.
Theorem C51_rejected_flags : forall pr (direct composite cip22 : BlsModel.hasher pr) bs,
  ffi_batch_verify_strict direct composite cip22 bs false true =
  Returns (match bs with [] => true | _ => false end) (Some (repeat false (length bs))).
Proof. intros. apply bad_flags_strict. Qed.
(** No pairs, no claim: a message whose key or signature array is empty is accepted. *)
Theorem C51_empty_accepted : forall pr (direct composite cip22 : BlsModel.hasher pr) c f h d x (ks : list (G2 pr)) (ss : list (G1 pr)) H,
  selected direct composite cip22 c f h -> h SIG_DOMAIN d x = Ok H -> ks = [] \/ ss = [] ->
  ffi_batch_verify_strict direct composite cip22 [(BMsg d x ks ss, [])] c f = Returns true (Some [true]).
Proof. intros. apply (strict_empty direct composite cip22 c f h d x ks ss H); assumption. Qed.
(** Keys without a signature, or signatures without a key, are not looked at. *)
Theorem C51_surplus_ignored : forall pr (direct composite cip22 : BlsModel.hasher pr) c f d x (ks : list (G2 pr)) (ss : list (G1 pr)) ks' ss' rnd,
  length ks = length ss ->
  ffi_batch_verify_strict direct composite cip22 [(BMsg d x (ks ++ ks') ss, rnd)] c f =
  ffi_batch_verify_strict direct composite cip22 [(BMsg d x ks ss, rnd)] c f /\
  ffi_batch_verify_strict direct composite cip22 [(BMsg d x ks (ss ++ ss'), rnd)] c f =
  ffi_batch_verify_strict direct composite cip22 [(BMsg d x ks ss, rnd)] c f.
Proof.
  intros pr d0 c0 f0 c f d x ks ss ks' ss' rnd L. destruct (strict_context_surplus d x ks ss ks' ss' L) as [E1 E2].
  split; apply strict_context_same; constructor; try constructor; cbn [fst snd]; assumption || reflexivity.
Qed.

(** ** C52 *)
Theorem C52_subtract : forall (E : cenv) (h : list (cop E)) o1 o2 agg pks, Forall fair_op h -> fair o1 -> fair o2 ->
  exists Q, set_sum pks Q /\ snd (ffi_aggregate_public_keys_subtract o1 o2 (crun h) agg pks) = Returns true (Some (pt agg - Q)%G).
Proof. intros. apply subtract_spec; assumption. Qed.
Theorem C52_aggregate : forall (E : cenv) (h : list (cop E)) o1 o2 pks P, Forall fair_op h -> fair o1 -> fair o2 ->
  snd (ffi_aggregate_public_keys o1 o2 (crun h) pks) = Returns true (Some P) <-> set_sum pks P.
Proof. intros. apply aggregate_spec; assumption. Qed.
Theorem C52_add_then_subtract : forall (E : cenv) (h h' : list (cop E)) o1 o2 o1' o2' all kept gone P agg,
  Forall fair_op h -> Forall fair_op h' -> fair o1 -> fair o2 -> fair o1' -> fair o2' ->
  NoDup (kept ++ gone) -> (forall k, In k all <-> In k (kept ++ gone)) ->
  snd (ffi_aggregate_public_keys o1 o2 (crun h) all) = Returns true (Some P) -> pt agg = P ->
  snd (ffi_aggregate_public_keys_subtract o1' o2' (crun h') agg gone) = Returns true (Some (sum_of kept)).
Proof. intros E h h' o1 o2 o1' o2' all kept gone P agg A B C D F G H I J K. apply (add_then_subtract h h' o1 o2 o1' o2' all kept gone P agg); assumption. Qed.
(** With a key listed twice the result is not the sum of what remains: both copies are gone. *)
Theorem C52_duplicates_refuted : forall (E : cenv) (h h' : list (cop E)) o1 o2 o1' o2' a P agg,
  Forall fair_op h -> Forall fair_op h' -> fair o1 -> fair o2 -> fair o1' -> fair o2' ->
  snd (ffi_aggregate_public_keys o1 o2 (crun h) [a; a]) = Returns true (Some P) -> pt agg = P ->
  snd (ffi_aggregate_public_keys_subtract o1' o2' (crun h') agg [a]) = Returns true (Some gz).
Proof. intros E h h' o1 o2 o1' o2' a P agg A B C D F G H I. apply (duplicate_subtract h h' o1 o2 o1' o2' a P agg); assumption. Qed.

(** ** C53 *)
Theorem C53_read_pubkeys : forall sqrt in_subgroup mem num ks, sqrt_spec q2mul sqrt ->
  is_bytes mem = true -> 0 <= num -> (num * 96) mod 2 ^ 64 <= Z.of_nat (length mem) ->
  read_pubkeys sqrt in_subgroup mem num = Ok ks <->
  num * 96 < 2 ^ 64 /\ Z.of_nat (length ks) = num /\
  forall i, (i < length ks)%nat -> exists P, nth_error ks i = Some P /\ key_at in_subgroup mem i P.
Proof. intros. apply read_pubkeys_iff; assumption. Qed.
Theorem C53_round_trip : forall sqrt in_subgroup ks rest, sqrt_spec q2mul sqrt ->
  Z.of_nat (length ks) * 96 < 2 ^ 64 -> Forall (valid_key in_subgroup) ks ->
  read_pubkeys sqrt in_subgroup (serialize_pubkeys ks ++ rest) (Z.of_nat (length ks)) = Ok ks.
Proof. intros. apply pubkeys_roundtrip; assumption. Qed.
Theorem C53_reads_only_the_keys : forall sqrt in_subgroup mem mem' num, 0 <= num ->
  firstn (Z.to_nat (num * 96)) mem = firstn (Z.to_nat (num * 96)) mem' ->
  read_pubkeys sqrt in_subgroup mem num = read_pubkeys sqrt in_subgroup mem' num.
Proof. intros. apply read_prefix; assumption. Qed.
Theorem C53_never_panics : forall sqrt in_subgroup mem num, read_pubkeys sqrt in_subgroup mem num <> Panic.
Proof. intros. apply read_keys_not_panic. Qed.
Theorem C53_serialized_length : forall ks, length (serialize_pubkeys ks) = (96 * length ks)%nat /\ is_bytes (serialize_pubkeys ks) = true.
Proof. intros. split; [apply serialize_pubkeys_length|apply serialize_pubkeys_bytes]. Qed.
Theorem C53_block_round_trip : forall sqrt in_subgroup (b : epoch_block g2_point) rest, sqrt_spec q2mul sqrt ->
  (forall e, eb_epoch_entropy b = Some e -> length e = 16%nat) -> (forall e, eb_parent_entropy b = Some e -> length e = 16%nat) ->
  Z.of_nat (length (eb_keys b)) * 96 < 2 ^ 64 -> Forall (valid_key in_subgroup) (eb_keys b) ->
  epoch_block_try_from sqrt in_subgroup (EpochBlockFFI (eb_index b) (eb_round b) (eb_epoch_entropy b) (eb_parent_entropy b)
    (serialize_pubkeys (eb_keys b) ++ rest) (Z.of_nat (length (eb_keys b))) (eb_max_non_signers b) (eb_max_validators b)) = Ok b.
Proof. intros. apply block_roundtrip; assumption. Qed.

(** ** C54 *)
Theorem C54_encode_cip22 : forall i rd e pe ns mv ks, entropy_ptr e -> entropy_ptr pe -> wf_block (mk_block i rd None None ns mv ks) ->
  exists m x, enc_signed (mk_block i rd (option_map (firstn 16) e) (option_map (firstn 16) pe) ns mv ks) = Ok (m, x) /\ length x = 7%nat /\
    ffi_encode_epoch_block_to_bytes_cip22 i rd e pe ns mv ks = Returns true (Some ((m, as_c_int (Z.of_nat (length m))), (x, 7))).
Proof. exact encode_cip22_spec. Qed.
Theorem C54_encode_plain : forall i ns ks, wf_block (mk_block i 0 None None ns (Z.of_nat (length ks)) ks) ->
  exists m, enc_plain (mk_block i 0 None None ns (Z.of_nat (length ks)) ks) = Ok m /\
    ffi_encode_epoch_block_to_bytes i ns ks = Returns true (Some (m, as_c_int (Z.of_nat (length m)))).
Proof. exact encode_plain_spec. Qed.
Theorem C54_reported_length : forall n, 0 <= n -> (as_c_int n = n <-> n < 2 ^ 31) /\ - 2 ^ 31 <= as_c_int n < 2 ^ 31 /\ (2 ^ 32 | as_c_int n - n).
Proof. intros n H. split; [apply as_c_int_iff, H|]. split; [apply as_c_int_range|apply as_c_int_mod]. Qed.
(** The maximum of validators alone can push the length past the range of c_int. *)
Theorem C54_length_refuted : exists i rd ns mv, wf_block (mk_block i rd None None ns mv []) /\ 0 <= mv < 2 ^ 32 /\
  exists m n x, ffi_encode_epoch_block_to_bytes_cip22 i rd None None ns mv [] = Returns true (Some ((m, n), x)) /\ n <> Z.of_nat (length m).
Proof. exact encode_length_wraps. Qed.
Theorem C54_null_entropy : forall i rd ns mv ks,
  ffi_encode_epoch_block_to_bytes_cip22 i rd None None ns mv ks =
  ffi_encode_epoch_block_to_bytes_cip22 i rd (Some (repeat 0 16)) (Some (repeat 0 16)) ns mv ks.
Proof. exact encode_null_entropy. Qed.
Theorem C54_cip22_binding : forall i rd e pe ns mv ks i' rd' e' pe' ns' mv' ks' out,
  entropy_ptr e -> entropy_ptr pe -> wf_block (mk_block i rd None None ns mv ks) ->
  entropy_ptr e' -> entropy_ptr pe' -> wf_block (mk_block i' rd' None None ns' mv' ks') ->
  ffi_encode_epoch_block_to_bytes_cip22 i rd e pe ns mv ks = Returns true (Some out) ->
  ffi_encode_epoch_block_to_bytes_cip22 i' rd' e' pe' ns' mv' ks' = Returns true (Some out) ->
  i = i' /\ rd = rd' /\ ns = ns' /\ entropy_value e = entropy_value e' /\ entropy_value pe = entropy_value pe' /\
  padded_keys (mk_block i rd None None ns mv ks) = padded_keys (mk_block i' rd' None None ns' mv' ks').
Proof. exact encode_cip22_binding. Qed.
Theorem C54_plain_binding : forall i ns ks i' ns' ks' out,
  wf_block (mk_block i 0 None None ns (Z.of_nat (length ks)) ks) -> wf_block (mk_block i' 0 None None ns' (Z.of_nat (length ks')) ks') ->
  ffi_encode_epoch_block_to_bytes i ns ks = Returns true (Some out) -> ffi_encode_epoch_block_to_bytes i' ns' ks' = Returns true (Some out) ->
  i = i' /\ ns = ns' /\ ks = ks'.
Proof. exact encode_plain_binding. Qed.

(** ** C55 *)
Theorem C55_compress_signature : forall l,
  ffi_compress_signature l =
  if (96 <=? length l)%nat && (num48 0 l <? p) && (num48 1 l <? p)
  then Returns true (Some (signature_serialize (Some (fq_of (num48 0 l), fq_of (num48 1 l))), 48)) else Panics.
Proof. exact compress_signature_cases. Qed.
Theorem C55_compress_pubkey : forall l,
  ffi_compress_pubkey l =
  if (192 <=? length l)%nat && (num48 0 l <? p) && (num48 1 l <? p) && (num48 2 l <? p) && (num48 3 l <? p)
  then Returns true (Some (public_key_serialize (Some ((fq_of (num48 0 l), fq_of (num48 1 l)), (fq_of (num48 2 l), fq_of (num48 3 l)))), 96)) else Panics.
Proof. exact compress_pubkey_cases. Qed.
(** On the library's own uncompressed form: agreement for every finite point, a panic for infinity. *)
Theorem C55_signature_agrees : forall Q rest,
  ffi_compress_signature (signature_serialize_uncompressed (Some Q) ++ rest) = Returns true (Some (signature_serialize (Some Q), 48)) /\
  ffi_compress_signature (signature_serialize_uncompressed None ++ rest) = Panics.
Proof. exact compress_signature_agrees. Qed.
Theorem C55_pubkey_agrees : forall Q rest,
  ffi_compress_pubkey (public_key_serialize_uncompressed (Some Q) ++ rest) = Returns true (Some (public_key_serialize (Some Q), 96)) /\
  ffi_compress_pubkey (public_key_serialize_uncompressed None ++ rest) = Panics.
Proof. exact compress_pubkey_agrees. Qed.
(** No curve check: only the sign of the ordinate reaches the output, so any pair of coordinates with a
    valid abscissa compresses to the encoding of the point with that abscissa and sign. *)
Theorem C55_no_curve_check : forall x y y' rest rest', (fqv (qopp y) < fqv y <-> fqv (qopp y') < fqv y') ->
  ffi_compress_signature (signature_serialize_uncompressed (Some (x, y)) ++ rest) =
  ffi_compress_signature (signature_serialize_uncompressed (Some (x, y')) ++ rest').
Proof.
  intros x y y' rest rest' H. rewrite (proj1 (compress_signature_agrees (x, y) rest)), (proj1 (compress_signature_agrees (x, y') rest')).
  rewrite (serialize_sign_only x y y' H). reflexivity.
Qed.

(** ** C57 *)
Theorem C57_direct_with_attempt : forall (E : grp) of_point sqrt affine_of m (pop : bool) out, sqrt_spec qmul sqrt ->
  ffi_hash_direct_with_attempt E of_point sqrt affine_of m pop = Returns true (Some out) <->
  exists P c, least_success (fun c => hash direct_hasher (if pop then POP_DOMAIN else SIG_DOMAIN) (c :: m) 64) 48
      (gives (denotes_g1 377) of_point G1_COFACTOR 48) P c /\ out = ((g1_affine_write (affine_of P), 97), c).
Proof. intros. apply direct_with_attempt_iff; assumption. Qed.
Theorem C57_direct : forall (E : grp) of_point sqrt affine_of m pop b,
  ffi_hash_direct E of_point sqrt affine_of m pop = Returns true (Some b) <->
  exists c, ffi_hash_direct_with_attempt E of_point sqrt affine_of m pop = Returns true (Some (b, c)).
Proof. intros. apply direct_is_attempt. Qed.
Theorem C57_composite : forall (E : grp) of_point sqrt rep_of pedersen m x out, sqrt_spec qmul sqrt ->
  (forall m out, pedersen m = Ok out -> is_bytes out = true) ->
  ffi_hash_composite E of_point sqrt rep_of pedersen m x = Returns true (Some out) <->
  exists P c, least_success (fun c => hash (composite_hasher pedersen) SIG_DOMAIN (c :: x ++ m) 64) 48
      (gives (denotes_g1 377) of_point G1_COFACTOR 48) P c /\ out = (g1_projective_write (rep_of P), 144).
Proof. intros. apply composite_out; assumption. Qed.
Theorem C57_composite_cip22 : forall (E : grp) of_point sqrt rep_of pedersen m x out, sqrt_spec qmul sqrt ->
  (forall m out, pedersen m = Ok out -> is_bytes out = true) ->
  ffi_hash_composite_cip22 E of_point sqrt rep_of pedersen m x = Returns true (Some out) <->
  exists inner P c, pedersen m = Ok inner /\
    least_success (fun c => direct_xof SIG_DOMAIN (c :: x ++ inner) 64) 48 (gives (denotes_g1 377) of_point G1_COFACTOR 48) P c /\
    out = ((g1_projective_write (rep_of P), 144), c).
Proof. intros. apply cip22_out; assumption. Qed.
Theorem C57_total : forall (E : grp) of_point sqrt affine_of rep_of pedersen m x (pop : bool),
  (exists b o, ffi_hash_direct E of_point sqrt affine_of m pop = Returns b o /\ (b = true <-> exists v, o = Some v)) /\
  (exists b o, ffi_hash_direct_with_attempt E of_point sqrt affine_of m pop = Returns b o /\ (b = true <-> exists v, o = Some v)) /\
  ((forall c, pedersen (c :: x ++ m) <> Panic) ->
   exists b o, ffi_hash_composite E of_point sqrt rep_of pedersen m x = Returns b o /\ (b = true <-> exists v, o = Some v)) /\
  (pedersen m <> Panic ->
   exists b o, ffi_hash_composite_cip22 E of_point sqrt rep_of pedersen m x = Returns b o /\ (b = true <-> exists v, o = Some v)).
Proof. intros. apply hash_calls_total; assumption. Qed.
(** The affine form determines and is determined by the point. *)
Theorem C57_affine_form : forall P P', length (g1_affine_write P) = 97%nat /\ (g1_affine_write P = g1_affine_write P' -> P = P').
Proof. intros P P'. split; [apply affine_write_length|apply affine_write_inj]. Qed.
(** Little-endian x, little-endian y, and a byte that is 1 for the point at infinity (written as (0, 1)). *)
Theorem C57_affine_layout : forall P, let w := g1_affine_write P in
  number (firstn 48 w) = fqv (match P with Some (x, _) => x | None => q0 end) /\
  number (firstn 48 (skipn 48 w)) = fqv (match P with Some (_, y) => y | None => q1 end) /\
  skipn 48 (skipn 48 w) = [match P with Some _ => 0 | None => 1 end].
Proof. exact affine_layout. Qed.
(** Little-endian x, y and z of the triple. *)
Theorem C57_projective_layout : forall P, let w := g1_projective_write P in
  number (firstn 48 w) = fqv (jx P) /\ number (firstn 48 (skipn 48 w)) = fqv (jy P) /\ number (skipn 48 (skipn 48 w)) = fqv (jz P).
Proof. exact projective_layout. Qed.
(** The Jacobian form does not: two triples of the same point are written differently, for every point. *)
Theorem C57_projective_not_canonical : forall P, jz P <> q0 ->
  exists P', jac_point P' = jac_point P /\ g1_projective_write P' <> g1_projective_write P.
Proof. exact projective_not_canonical. Qed.
Theorem C57_projective_form : forall P P', length (g1_projective_write P) = 144%nat /\
  (g1_projective_write P = g1_projective_write P' -> jac_point P = jac_point P').
Proof.
  intros P P'. split; [apply projective_write_length|]. intros H. apply projective_write_inj in H. destruct H as (H1 & H2 & H3).
  unfold jac_point. rewrite H1, H2, H3. reflexivity.
Qed.

(** ** C58 *)
Theorem C58_verify_accepts : forall sqrt in_subgroup vkey proof (vkd : bytes -> result vkey) (pd : bytes -> result proof) vp vk pf first last,
  ffi_verify sqrt in_subgroup vkd pd vp blake2_out vk pf first last = Returns true None <->
  exists f l v q m1 m2, epoch_block_try_from sqrt in_subgroup first = Ok f /\ epoch_block_try_from sqrt in_subgroup last = Ok l /\
    vkd vk = Ok v /\ pd pf = Ok q /\ enc_first f = Ok m1 /\ enc_last l = Ok m2 /\
    vp v q (packed_digests (blake2_out m1) (blake2_out m2)) = Ok true.
Proof. intros. apply verify_iff. exact HasherProofs.blake2_out_length. Qed.
Theorem C58_verify_total : forall sqrt in_subgroup vkey proof (vkd : bytes -> result vkey) (pd : bytes -> result proof) vp vk pf first last,
  vkd vk <> Panic -> pd pf <> Panic -> (forall v q i, vp v q i <> Panic) ->
  exists b, ffi_verify sqrt in_subgroup vkd pd vp blake2_out vk pf first last = Returns b None.
Proof. intros. apply verify_total; try assumption. exact HasherProofs.blake2_out_length. Qed.
(** The verdict depends on the two blocks only through their boundary encodings; in particular the
    rounds, the epoch entropy of the first and the parent entropy of the last block are ignored. *)
Theorem C58_ignored_fields : forall sqrt in_subgroup vkey proof (vkd : bytes -> result vkey) (pd : bytes -> result proof) vp vk pf
    i rd e pe km kn ns mv rd' e' i2 rd2 e2 pe2 km2 kn2 ns2 mv2 rd2' pe2',
  ffi_verify sqrt in_subgroup vkd pd vp blake2_out vk pf (EpochBlockFFI i rd e pe km kn ns mv) (EpochBlockFFI i2 rd2 e2 pe2 km2 kn2 ns2 mv2) =
  ffi_verify sqrt in_subgroup vkd pd vp blake2_out vk pf (EpochBlockFFI i rd' e' pe km kn ns mv) (EpochBlockFFI i2 rd2' e2 pe2' km2 kn2 ns2 mv2).
Proof. intros. apply ignored_fields. Qed.
Theorem C58_same_encodings : forall sqrt in_subgroup vkey proof (vkd : bytes -> result vkey) (pd : bytes -> result proof) vp vk pf first last first' last' f l f' l',
  epoch_block_try_from sqrt in_subgroup first = Ok f -> epoch_block_try_from sqrt in_subgroup last = Ok l ->
  epoch_block_try_from sqrt in_subgroup first' = Ok f' -> epoch_block_try_from sqrt in_subgroup last' = Ok l' ->
  enc_first f = enc_first f' -> enc_last l = enc_last l' ->
  ffi_verify sqrt in_subgroup vkd pd vp blake2_out vk pf first last = ffi_verify sqrt in_subgroup vkd pd vp blake2_out vk pf first' last'.
Proof.
  intros sqrt in_subgroup vkey proof vkd pd vp vk pf first last first' last' f l f' l' H1 H2 H3 H4 H5 H6.
  apply (verify_same_encodings sqrt in_subgroup vkd pd vp blake2_out HasherProofs.blake2_out_length vk pf first last first' last' f l f' l'); assumption.
Qed.
(** Equal inputs to Groth16 mean equal encodings, unless two encodings collide under the hash. *)
Theorem C58_inputs_binding : forall f l f' l' m1 m2 m1' m2',
  enc_first f = Ok m1 -> enc_last l = Ok m2 -> enc_first f' = Ok m1' -> enc_last l' = Ok m2' ->
  packed_digests (blake2_out m1) (blake2_out m2) = packed_digests (blake2_out m1') (blake2_out m2') ->
  (m1 = m1' \/ (m1 <> m1' /\ blake2_out m1 = blake2_out m1')) /\ (m2 = m2' \/ (m2 <> m2' /\ blake2_out m2 = blake2_out m2')).
Proof.
  intros f l f' l' m1 m2 m1' m2' E1 E2 E1' E2' H.
  destruct (packed_binding blake2_out HasherProofs.blake2_out_length f l f' l' m1 m2 m1' m2' E1 E2 E1' E2' H) as [B1 B2].
  split; [destruct (list_eq_dec Z.eq_dec m1 m1')|destruct (list_eq_dec Z.eq_dec m2 m2')]; auto.
Qed.
Print Assumptions C49_sign_then_verify.
Print Assumptions C49_sign_value.
Print Assumptions C49_sign_true_writes.
Print Assumptions C49_sign_false_writes_nothing.
Print Assumptions C49_verify_selected.
Print Assumptions C49_rejected_flags.
Print Assumptions C49_cross_flags.
Print Assumptions C49_pop_round_trip.
Print Assumptions C50_verify_signature.
Print Assumptions C50_verify_pop.
Print Assumptions C50_batch_verify_signature.
Print Assumptions C50_hashes_do_not_panic.
Print Assumptions C51_slots.
Print Assumptions C51_complete.
Print Assumptions C51_sound.
Print Assumptions C51_rejected_flags.
Print Assumptions C51_empty_accepted.
Print Assumptions C51_surplus_ignored.
Print Assumptions C52_subtract.
Print Assumptions C52_aggregate.
Print Assumptions C52_add_then_subtract.
Print Assumptions C52_duplicates_refuted.
Print Assumptions C53_read_pubkeys.
Print Assumptions C53_round_trip.
Print Assumptions C53_reads_only_the_keys.
Print Assumptions C53_never_panics.
Print Assumptions C53_serialized_length.
Print Assumptions C53_block_round_trip.
Print Assumptions C54_encode_cip22.
Print Assumptions C54_encode_plain.
Print Assumptions C54_reported_length.
Print Assumptions C54_length_refuted.
Print Assumptions C54_null_entropy.
Print Assumptions C54_cip22_binding.
Print Assumptions C54_plain_binding.
Print Assumptions C55_compress_signature.
Print Assumptions C55_compress_pubkey.
Print Assumptions C55_signature_agrees.
Print Assumptions C55_pubkey_agrees.
Print Assumptions C55_no_curve_check.
Print Assumptions C57_direct_with_attempt.
Print Assumptions C57_direct.
Print Assumptions C57_composite.
Print Assumptions C57_composite_cip22.
Print Assumptions C57_total.
Print Assumptions C57_affine_form.
Print Assumptions C57_affine_layout.
Print Assumptions C57_projective_layout.
Print Assumptions C57_projective_not_canonical.
Print Assumptions C57_projective_form.
Print Assumptions C58_verify_accepts.
Print Assumptions C58_verify_total.
Print Assumptions C58_ignored_fields.
Print Assumptions C58_same_encodings.
Print Assumptions C58_inputs_binding.
