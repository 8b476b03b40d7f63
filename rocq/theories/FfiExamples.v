(** Concrete cases meeting the hypotheses of C49-C55, C57 and C58. *)
From Verif Require Import Base Constants Group Instances Field Curve BlsModel BlsSpec BlsProofs BatchProofs BlsExamples CacheModel CacheSpec CacheProofs CacheExamples
  EncodingModel EncodingSpec HasherModel PointModel PointProofs HashCurveModel HashCurveSpec HashCurveProofs CodecModel CodecSpec CodecProofs CodecExamples
  FfiModel FfiSpec FfiProofs FfiDataProofs PropFfi.

(** Three different hash functions. *)
Definition toy2 : BlsModel.hasher zr_pairing := fun d m x => toy d (m ++ [1]) x.
Definition toy3 : BlsModel.hasher zr_pairing := fun d m x => toy d (m ++ [2]) x.
Notation fsign := (ffi_sign_message toy toy2 toy3).
Notation fver := (ffi_verify_signature toy toy2 toy3).
Definition sig_of (x : reply (G1 zr_pairing)) : G1 zr_pairing := match x with Returns _ (Some s) => s | _ => gz end.
Example ex_C49 : ~ (r | 7) /\ (exists s, fsign 7 [1; 2] [3] true true = Returns true (Some s)) /\
  fver (to_public 7) [1; 2] [3] (sig_of (fsign 7 [1; 2] [3] true true)) true true = Returns true (Some true) /\
  fver (to_public 7) [1; 2] [3] (sig_of (fsign 7 [1; 2] [3] true true)) true false = Returns true (Some false) /\
  fver (to_public 7) [1; 2] [3] (sig_of (fsign 7 [1; 2] [3] true true)) false false = Returns true (Some false) /\
  fsign 7 [255] [3] false false = Returns false None.
Proof.
  split; [apply ex_C03|]. split; [eexists; reflexivity|].
  split; [vm_compute; reflexivity|]. split; [vm_compute; reflexivity|]. split; [vm_compute; reflexivity|reflexivity].
Qed.
(** The verdict for a message that does not hash is false, with true returned. *)
Example ex_C50 : fver (to_public 7) [255] [] gz false false = Returns true (Some false) /\
  ffi_verify_pop toy (to_public 7) [255] gz = Returns true (Some false) /\
  toy SIG_DOMAIN [255] [] <> Panic.
Proof. split; [vm_compute; reflexivity|]. split; [vm_compute; reflexivity|discriminate]. Qed.
Example ex_C50_batch : let m1 := Msg [1] [9] (to_public 3) (smul 3 toyH) in let m2 := Msg [1] [9] (to_public 4) (smul 4 toyH) in
  (forall m, In m [m1; m2] -> toy SIG_DOMAIN (m_data m) (m_extra m) <> Panic) /\
  ffi_batch_verify_signature toy toy2 toy3 [m1; m2] false false = Returns true (Some true) /\
  ffi_batch_verify_signature toy toy2 toy3 [m1; m1; m2] true false = Returns true (Some false) /\
  ffi_batch_verify_signature toy toy2 toy3 [] false false = Returns true (Some true).
Proof. cbn zeta. split; [intros m [<-|[<-|[]]]; discriminate|]. vm_compute. repeat split. Qed.

(** Strict batches: two valid pairs; one invalid pair; mismatched arrays. *)
Definition good_batch : batch_message zr_pairing := BMsg [1] [9] [to_public 3; to_public 4] [smul 3 toyH; smul 4 toyH].
Definition bad_batch : batch_message zr_pairing := BMsg [1] [9] [to_public 3; to_public 4] [smul 3 toyH; smul 5 toyH].
Lemma toy_strict_draw a b : 0 <= a < 256 -> 0 <= b < 256 -> strict_draw 2 (toy_draw a b).
Proof.
  intros Ha Hb. split; [reflexivity|].
  repeat apply Forall_cons; try apply Forall_nil; split; try reflexivity; apply is_bytes_cons; split; try assumption; reflexivity.
Qed.
Example ex_C51 : Forall (strict_ready toy) [(good_batch, toy_draw 255 1); (bad_batch, toy_draw 3 1)] /\
  ffi_batch_verify_strict toy toy2 toy3 [(good_batch, toy_draw 255 1); (bad_batch, toy_draw 3 1)] false false = Returns false (Some [true; false]) /\
  ffi_batch_verify_strict toy toy2 toy3 [(good_batch, toy_draw 255 1)] false false = Returns true (Some [true]) /\
  ffi_batch_verify_strict toy toy2 toy3 [(good_batch, toy_draw 255 1)] true false = Returns false (Some [false]) /\
  ~ pair_ok toy bad_batch /\ pair_ok toy good_batch.
Proof.
  split; [constructor; [|constructor; [|constructor]]; (split; [vm_compute; discriminate|split; [apply toy_strict_draw; lia|discriminate]])|].
  split; [vm_compute; reflexivity|]. split; [vm_compute; reflexivity|]. split; [vm_compute; reflexivity|]. split.
  - intros V. inversion V as [|? ? _ V']; subst. inversion V' as [|? ? V2 _]; subst. apply verify_sig_iff in V2. vm_compute in V2. discriminate.
  - repeat constructor; exists toyH; (split; [reflexivity|]); eexists; split; reflexivity.
Qed.
(** The bound of C51_sound is met: the all-zero draw accepts a message with one bad pair. *)
Example ex_C51_attained : let b := BMsg [1] [9] [to_public 4] [smul 5 toyH] in
  ~ pair_ok toy b /\ strict_draw 1 [repeat 0 16] /\
  ffi_batch_verify_strict toy toy2 toy3 [(b, [repeat 0 16])] false false = Returns true (Some [true]).
Proof.
  cbn zeta. split; [|split; [|vm_compute; reflexivity]].
  - intros V. inversion V as [|? ? V2 _]; subst. apply verify_sig_iff in V2. vm_compute in V2. discriminate.
  - split; [reflexivity|]. repeat constructor.
Qed.
(** Surplus: the third key has not signed anything. *)
Example ex_C51_surplus : ffi_batch_verify_strict toy toy2 toy3
  [(BMsg [1] [9] [to_public 3; to_public 4; to_public 99] [smul 3 toyH; smul 4 toyH], toy_draw 255 1)] false false = Returns true (Some [true]).
Proof. vm_compute. reflexivity. Qed.

Example ex_C52 : NoDup ([K 1 2 1] ++ [K 3 4 1]) /\
  (forall k, In k [K 3 4 1; K 1 2 1; K 3 4 1] <-> In k ([K 1 2 1] ++ [K 3 4 1])) /\
  exists P, snd (ffi_aggregate_public_keys fwd bwd (crun toy_history) [K 3 4 1; K 1 2 1; K 3 4 1]) = Returns true (Some P) /\
    pt (K 4 6 1) = P /\ snd (ffi_aggregate_public_keys_subtract bwd fwd (crun toy_history) (K 4 6 1) [K 3 4 1]) = Returns true (Some (sum_of [K 1 2 1])).
Proof.
  assert (ND : NoDup ([K 1 2 1] ++ [K 3 4 1])).
  { repeat constructor; [intros [H|[]]; discriminate H|intros []]. }
  assert (I : forall k, In k [K 3 4 1; K 1 2 1; K 3 4 1] <-> In k ([K 1 2 1] ++ [K 3 4 1])) by (intros k; cbn; tauto).
  split; [exact ND|]. split; [exact I|]. exists (pt (K 4 6 1)).
  assert (A : snd (ffi_aggregate_public_keys fwd bwd (crun toy_history) [K 3 4 1; K 1 2 1; K 3 4 1]) = Returns true (Some (pt (K 4 6 1)))).
  { apply C52_aggregate; [apply ex_C12|apply fair_fwd|apply fair_bwd|]. exists ([K 1 2 1] ++ [K 3 4 1]). split; [exact ND|]. split; [intros k; symmetry; apply I|].
    apply zr_ext. vm_compute. reflexivity. }
  split; [exact A|]. split; [reflexivity|].
  apply (C52_add_then_subtract toyE toy_history toy_history fwd bwd bwd fwd [K 3 4 1; K 1 2 1; K 3 4 1] [K 1 2 1] [K 3 4 1] (pt (K 4 6 1)) (K 4 6 1));
    try apply ex_C12; try apply fair_fwd; try apply fair_bwd; try assumption. reflexivity.
Qed.

(** C53, C54: the generator as the only validator. *)
Example ex_valid_key : Forall (valid_key (fun _ => true)) [Some g2_gen; None].
Proof.
  constructor; [|constructor; [|constructor]]; intros Q H; [|discriminate H]. injection H as <-. split; [exact g2_gen_on|reflexivity].
Qed.
Example ex_C53 : read_pubkeys fq2_sqrt (fun _ => true) (serialize_pubkeys [Some g2_gen; None] ++ [1; 2; 3]) 2 = Ok [Some g2_gen; None].
Proof. apply (C53_round_trip fq2_sqrt (fun _ => true) [Some g2_gen; None] [1; 2; 3]); [exact fq2_sqrt_ok|reflexivity|exact ex_valid_key]. Qed.
(** A count whose product with 96 wraps to zero reads nothing and fails at the first key. *)
Example ex_C53_wraps : read_pubkeys fq2_sqrt (fun _ => true) [] (2 ^ 59) <> Ok [] /\ (2 ^ 59 * 96) mod 2 ^ 64 = 0.
Proof.
  split; [|reflexivity]. intros H. apply C53_read_pubkeys in H; [|exact fq2_sqrt_ok|reflexivity|lia|vm_compute; discriminate]. destruct H as (H & _). vm_compute in H. discriminate H.
Qed.
Example ex_C54 : entropy_ptr (Some (repeat 7 20)) /\ wf_block (mk_block 5 1 None None 2 3 [Some g2_gen]) /\
  exists m x, ffi_encode_epoch_block_to_bytes_cip22 5 1 (Some (repeat 7 20)) None 2 3 [Some g2_gen] = Returns true (Some ((m, 316), (x, 7))) /\
  length m = 316%nat.
Proof.
  assert (P : entropy_ptr (Some (repeat 7 20))) by (split; [reflexivity|cbn; lia]).
  assert (W : wf_block (mk_block 5 1 None None 2 3 [Some g2_gen])).
  { split; [repeat split; reflexivity || (cbn [eb_index eb_round eb_max_non_signers]; lia)|]. split; [exact I|]. split; [exact I|vm_compute; reflexivity]. }
  split; [exact P|]. split; [exact W|].
  destruct (C54_encode_cip22 5 1 (Some (repeat 7 20)) None 2 3 [Some g2_gen] P I W) as (m & x & E & _ & ->). exists m, x.
  assert (L : length m = 316%nat).
  { apply (f_equal (fun y => match y with Ok (a, _) => length a | _ => 0%nat end)) in E. rewrite <- E. vm_compute. reflexivity. }
  rewrite L. split; reflexivity.
Qed.

(** C55: an off-curve point with the abscissa of (0, 1) compresses to the encoding of (0, 1). *)
Example ex_C55 : (fqv (qopp q1) < fqv q1 <-> fqv (qopp (fq_of 2)) < fqv (fq_of 2)) /\ ~ g1_equation (q0, fq_of 2) /\
  ffi_compress_signature (signature_serialize_uncompressed (Some (q0, fq_of 2))) = Returns true (Some (signature_serialize (Some (q0, q1)), 48)) /\
  ffi_compress_signature (repeat 0 95) = Panics /\ ffi_compress_signature (repeat 255 96) = Panics /\ ffi_compress_pubkey (repeat 0 191) = Panics.
Proof.
  split; [split; intros H; vm_compute in H; discriminate H|]. split.
  - intros H. apply (f_equal fqv) in H. vm_compute in H. discriminate H.
  - repeat split; vm_compute; reflexivity.
Qed.

(** C57: oracles meeting the premises; a Jacobian triple of (0, 1). *)
Example ex_C57 : sqrt_spec qmul fq_sqrt /\ (forall m out, (fun _ : bytes => Ok (repeat 0 48)) m = Ok out -> is_bytes out = true) /\
  (forall m, (fun _ : bytes => Ok (repeat 0 48)) m <> @Panic bytes) /\ jz (Jac q0 q1 q1) <> q0 /\ jac_point (Jac q0 q1 q1) = Some (q0, q1).
Proof.
  split; [exact fq_sqrt_ok|]. split; [intros m out H; injection H as <-; reflexivity|]. split; [discriminate|].
  split; [intros H; apply (f_equal fqv) in H; vm_compute in H; discriminate H|].
  unfold jac_point. cbn [jx jy jz]. assert (N : qeqb q1 q0 = false) by (vm_compute; reflexivity). rewrite N. f_equal.
Qed.

(** C58: a verifier that accepts the inputs of one pair of blocks. *)
Definition blk (i : Z) : epoch_block g2_point := mk_block i 1 None None 2 1 [Some g2_gen].
Definition blk_ffi (i : Z) : epoch_block_ffi := EpochBlockFFI i 1 None None (serialize_pubkeys [Some g2_gen]) 1 2 1.
Example blk_conv i : epoch_block_try_from fq2_sqrt (fun _ => true) (blk_ffi i) = Ok (blk i).
Proof.
  pose proof (C53_block_round_trip fq2_sqrt (fun _ => true) (blk i) [] fq2_sqrt_ok) as H. cbn [blk eb_index eb_round eb_epoch_entropy eb_parent_entropy eb_keys eb_max_non_signers eb_max_validators] in H.
  rewrite app_nil_r in H. change (Z.of_nat (length [Some g2_gen])) with 1 in H. apply H; [intros e D; discriminate D|intros e D; discriminate D|reflexivity|]. pose proof ex_valid_key as V. inversion V; subst. constructor; [assumption|constructor].
Qed.
Definition wanted_of (x y : result bytes) : list Z :=
  match x, y with Ok a, Ok b => packed_digests (blake2_out a) (blake2_out b) | _, _ => [] end.
Definition wanted : list Z := wanted_of (enc_first (blk 1)) (enc_last (blk 2)).
Lemma wanted_eq m1 m2 : enc_first (blk 1) = Ok m1 -> enc_last (blk 2) = Ok m2 -> packed_digests (blake2_out m1) (blake2_out m2) = wanted.
Proof. unfold wanted. intros -> ->. exact eq_refl. Qed.
Definition toy_verify (v q : unit) (inputs : list Z) : result bool := Ok (if list_eq_dec Z.eq_dec inputs wanted then true else false).
Example ex_C58 : ffi_verify fq2_sqrt (fun _ => true) (fun _ => Ok tt) (fun _ => Ok tt) toy_verify blake2_out [] [] (blk_ffi 1) (blk_ffi 2) = Returns true None /\
  (forall v q i, toy_verify v q i <> Panic).
Proof.
  split; [|discriminate]. apply C58_verify_accepts.
  destruct (digests_exist blake2_out HasherProofs.blake2_out_length (blk 1) (blk 2)) as (m1 & m2 & E1 & E2 & _).
  exists (blk 1), (blk 2), tt, tt, m1, m2. split; [apply blk_conv|]. split; [apply blk_conv|]. split; [reflexivity|]. split; [reflexivity|].
  split; [exact E1|]. split; [exact E2|]. unfold toy_verify. destruct (list_eq_dec Z.eq_dec _ wanted) as [_|N]; [reflexivity|].
  destruct N. exact (wanted_eq m1 m2 E1 E2).
Qed.
