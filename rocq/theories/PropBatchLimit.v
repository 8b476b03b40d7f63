(** C86: one message that cannot be hashed without panicking makes a whole batch call of the C interface panic, and when that is the case.
    [selected direct composite cip22 c f h]: h is the hash function that the flags c and f select; [strict_draw]: the random bytes that are drawn per batch. *)
From Coq Require Import Permutation.
From Verif Require Import Base Constants Group Field Curve BlsModel BlsSpec EncodingModel HasherModel PointModel HashCurveModel HashCurveSpec
  FfiModel FfiSpec FfiProofs Edwards PedersenModel PedersenSpec PedersenUse PropFfi BatchLimitProofs.

(** [batch_verify_strict]: exactly if the message of one of the batches makes the hash panic, wherever it stands; the verdicts on the other
    batches are lost. *)
Theorem C86_strict : forall pr (direct composite cip22 : BlsModel.hasher pr) c f h (bs : list (batch_message pr * list bytes)),
  selected direct composite cip22 c f h ->
  Forall (fun q => Z.of_nat (pair_count (fst q)) <= usize_max /\ strict_draw (pair_count (fst q)) (snd q)) bs ->
  ffi_batch_verify_strict direct composite cip22 bs c f = Panics <->
  Exists (fun q => h SIG_DOMAIN (bm_data (fst q)) (bm_extra (fst q)) = Panic) bs.
Proof. intros pr d c0 c22 c f h bs S0 D. exact (strict_panics d c0 c22 c f h bs S0 D). Qed.
(** [batch_verify_signature]: exactly if the first message that does not hash to a point panics. *)
Theorem C86_batch : forall pr (direct composite cip22 : BlsModel.hasher pr) c f h (ms : list (message pr)),
  selected direct composite cip22 c f h ->
  ffi_batch_verify_signature direct composite cip22 ms c f = Panics <->
  exists ms1 m ms2, ms = ms1 ++ m :: ms2 /\ Forall (fun m => exists P, h SIG_DOMAIN (m_data m) (m_extra m) = Ok P) ms1 /\
    h SIG_DOMAIN (m_data m) (m_extra m) = Panic.
Proof. intros pr d c0 c22 c f h ms S0. exact (batch_panics d c0 c22 c f h ms S0). Qed.
(** With the composite flag this is a question of length alone: more than 19530 bytes, where without CIP22 the extra data and the counter count. *)
Theorem C86_strict_limit : forall pr (direct : BlsModel.hasher pr) of_point sqrt (Bs : list ed_grp) gens (f : bool) (bs : list (batch_message pr * list bytes)),
  Forall2 window_of Bs gens -> length Bs = 560%nat ->
  let composite := g1_hash true (composite_hasher (composite_crh gens)) (G1 pr) of_point G1_COFACTOR sqrt in
  let cip22 := g1_hash_cip22 true (composite_hasher (composite_crh gens)) (G1 pr) of_point G1_COFACTOR sqrt in
  Forall (fun q => Z.of_nat (pair_count (fst q)) <= usize_max /\ strict_draw (pair_count (fst q)) (snd q)) bs ->
  ffi_batch_verify_strict direct composite cip22 bs true f = Panics <->
  Exists (fun q => 19530 < Z.of_nat (length (bm_data (fst q))) + (if f then 0 else 1 + Z.of_nat (length (bm_extra (fst q))))) bs.
Proof. intros pr d o s Bs gens f bs F L c c22 D. exact (strict_limit pr d o s Bs gens F L f bs D). Qed.
Theorem C86_batch_limit : forall pr (direct : BlsModel.hasher pr) of_point sqrt (Bs : list ed_grp) gens (f : bool) h (ms : list (message pr)),
  Forall2 window_of Bs gens -> length Bs = 560%nat ->
  let composite := g1_hash true (composite_hasher (composite_crh gens)) (G1 pr) of_point G1_COFACTOR sqrt in
  let cip22 := g1_hash_cip22 true (composite_hasher (composite_crh gens)) (G1 pr) of_point G1_COFACTOR sqrt in
  selected direct composite cip22 true f h ->
  ffi_batch_verify_signature direct composite cip22 ms true f = Panics <->
  exists ms1 m ms2, ms = ms1 ++ m :: ms2 /\ Forall (fun m => exists P, h SIG_DOMAIN (m_data m) (m_extra m) = Ok P) ms1 /\
    19530 < Z.of_nat (length (m_data m)) + (if f then 0 else 1 + Z.of_nat (length (m_extra m))).
Proof. intros pr d o s Bs gens f h ms F L c c22 S0. exact (batch_limit pr d o s Bs gens F L f ms h S0). Qed.
(** Without the composite flag neither call panics on any messages. *)
Theorem C86_direct : forall pr compat of_point cofactor sqrt (composite cip22 : BlsModel.hasher pr) (f : bool)
  (ms : list (message pr)) (bs : list (batch_message pr * list bytes)),
  let direct := g1_hash compat direct_hasher (G1 pr) of_point cofactor sqrt in
  Forall (fun q => Z.of_nat (pair_count (fst q)) <= usize_max /\ strict_draw (pair_count (fst q)) (snd q)) bs ->
  ffi_batch_verify_signature direct composite cip22 ms false f <> Panics /\ ffi_batch_verify_strict direct composite cip22 bs false f <> Panics.
Proof.
  intros pr compat o cf s c c22 f ms bs direct D.
  assert (N : forall m x, direct SIG_DOMAIN m x <> Panic) by (intros m x; exact (proj1 (C50_hashes_do_not_panic compat (G1 pr) o cf s (fun _ => Panic) false m x))).
  split; intros K; destruct f.
  - discriminate K.
  - apply (C86_batch pr direct c c22 false false direct ms (sel_direct _ _ _)) in K. destruct K as (a & m & b & _ & _ & K). exact (N _ _ K).
  - rewrite C51_rejected_flags in K. discriminate K.
  - apply (C86_strict pr direct c c22 false false direct bs (sel_direct _ _ _) D) in K. apply Exists_exists in K. destruct K as (q & _ & K). exact (N _ _ K).
Qed.
(** The order of the messages of [batch_verify_signature] decides only whether the call panics: two orders that do not panic have the same answer. *)
Theorem C86_order : forall pr (direct composite cip22 : BlsModel.hasher pr) c f (ms ms' : list (message pr)), Permutation ms ms' ->
  ffi_batch_verify_signature direct composite cip22 ms c f <> Panics -> ffi_batch_verify_signature direct composite cip22 ms' c f <> Panics ->
  ffi_batch_verify_signature direct composite cip22 ms c f = ffi_batch_verify_signature direct composite cip22 ms' c f.
Proof. intros pr d c0 c22 c f ms ms' P N N'. exact (order_free d c0 c22 c f ms ms' P N N'). Qed.
(** It does decide that: with some hash function two orders of the same messages differ. *)
Theorem C86_order_panics_refuted : exists pr (direct composite cip22 : BlsModel.hasher pr) (ms ms' : list (message pr)), Permutation ms ms' /\
  ffi_batch_verify_signature direct composite cip22 ms false false = Panics /\
  ffi_batch_verify_signature direct composite cip22 ms' false false = Returns true (Some false).
Proof. exact order_panics. Qed.

Print Assumptions C86_strict.
Print Assumptions C86_batch.
Print Assumptions C86_strict_limit.
Print Assumptions C86_batch_limit.
Print Assumptions C86_direct.
Print Assumptions C86_order.
Print Assumptions C86_order_panics_refuted.
