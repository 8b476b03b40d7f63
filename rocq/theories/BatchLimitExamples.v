(** C86: cases that meet the premises. *)
From Coq Require Import Permutation.
From Verif Require Import Base Constants Group Instances Field Curve BlsModel BlsSpec BlsProofs BatchProofs BlsExamples EncodingModel HasherModel PointModel HashCurveModel HashCurveSpec
  HashCurveProofs FfiModel FfiSpec FfiProofs FfiExamples Edwards PedersenModel PedersenSpec PedersenProofs PedersenUse PedersenExamples PropFfi PropBatchLimit.

(** A hash function that panics on messages that start with 200. *)
Definition panicky : BlsModel.hasher zr_pairing := fun d m x => match m with 200 :: _ => Panic | _ => toy d m x end.
Definition panic_batch : batch_message zr_pairing := BMsg [200] [] [] [].
(** The good batch alone is accepted; with the other one after it the call panics. *)
Example ex_C86_strict :
  ffi_batch_verify_strict panicky toy2 toy3 [(good_batch, toy_draw 255 1)] false false = Returns true (Some [true]) /\
  Forall (fun q => Z.of_nat (pair_count (fst q)) <= usize_max /\ strict_draw (pair_count (fst q)) (snd q)) [(good_batch, toy_draw 255 1); (panic_batch, [])] /\
  ffi_batch_verify_strict panicky toy2 toy3 [(good_batch, toy_draw 255 1); (panic_batch, [])] false false = Panics.
Proof.
  assert (D : Forall (fun q => Z.of_nat (pair_count (fst q)) <= usize_max /\ strict_draw (pair_count (fst q)) (snd q)) [(good_batch, toy_draw 255 1); (panic_batch, [])]).
  { constructor; [split; [vm_compute; discriminate|apply toy_strict_draw; lia]|]. constructor; [split; [vm_compute; discriminate|split; [reflexivity|constructor]]|constructor]. }
  split; [vm_compute; reflexivity|]. split; [exact D|].
  apply (C86_strict zr_pairing panicky toy2 toy3 false false panicky _ (sel_direct _ _ _) D). right. left. reflexivity.
Qed.
(** A message that does not hash, before the one that panics, saves the call; after it, it does not. *)
Example ex_C86_batch : let m1 := Msg [1] [9] (to_public 3) (smul 3 toyH) in let m2 := Msg [255] [9] (to_public 3) gz in let m3 := Msg [200] [9] (to_public 3) gz in
  ffi_batch_verify_signature panicky toy2 toy3 [m1; m3; m2] false false = Panics /\
  ffi_batch_verify_signature panicky toy2 toy3 [m1; m2; m3] false false = Returns true (Some false).
Proof.
  intros m1 m2 m3. split.
  - apply (C86_batch zr_pairing panicky toy2 toy3 false false panicky _ (sel_direct _ _ _)). exists [m1], m3, [m2]. split; [reflexivity|]. split; [|reflexivity].
    constructor; [exists toyH; reflexivity|constructor].
  - reflexivity.
Qed.
(** With the composite flags: one byte too many in an empty batch beside any other. *)
Lemma too_long_strict pr (direct : BlsModel.hasher pr) of_point sqrt (Bs : list ed_grp) gens f q n : Forall2 window_of Bs gens -> length Bs = 560%nat ->
  Z.of_nat (pair_count (fst q)) <= usize_max /\ strict_draw (pair_count (fst q)) (snd q) -> 19530 < Z.of_nat n ->
  let composite := g1_hash true (composite_hasher (composite_crh gens)) (G1 pr) of_point G1_COFACTOR sqrt in
  let cip22 := g1_hash_cip22 true (composite_hasher (composite_crh gens)) (G1 pr) of_point G1_COFACTOR sqrt in
  ffi_batch_verify_strict direct composite cip22 [q; (BMsg (repeat 0 n) [] [] [], [])] true f = Panics.
Proof.
  intros F L D N composite cip22. apply (C86_strict_limit pr direct of_point sqrt Bs gens f _ F L).
  - constructor; [exact D|]. constructor; [|constructor]. split; [cbn; unfold usize_max; lia|]. split; [reflexivity|constructor].
  - right. left. cbn [fst bm_data bm_extra]. rewrite repeat_length. destruct f; cbn [length]; lia.
Qed.
Example ex_C86_limit : let gens := repeat (segment_generators WINDOW_SIZE (edp ex_Q)) 560 in
  ffi_batch_verify_strict toy (g1_hash true (composite_hasher (composite_crh gens)) (G1 zr_pairing) (fun _ => toyH) G1_COFACTOR fq_sqrt)
    (g1_hash_cip22 true (composite_hasher (composite_crh gens)) (G1 zr_pairing) (fun _ => toyH) G1_COFACTOR fq_sqrt)
    [(good_batch, toy_draw 255 1); (BMsg (repeat 0 (Z.to_nat 19531)) [] [] [], [])] true true = Panics.
Proof.
  intros gens. apply (too_long_strict zr_pairing toy (fun _ => toyH) fq_sqrt (repeat ex_Q 560) gens true (good_batch, toy_draw 255 1) (Z.to_nat 19531)).
  - apply windows_repeat.
  - apply repeat_length.
  - split; [vm_compute; discriminate|apply toy_strict_draw; lia].
  - rewrite Z2Nat.id; lia.
Qed.
Lemma too_long_batch pr (direct : BlsModel.hasher pr) of_point sqrt (Bs : list ed_grp) gens f (k : G2 pr) (s : G1 pr) n ms : Forall2 window_of Bs gens -> length Bs = 560%nat ->
  19530 < Z.of_nat n ->
  let composite := g1_hash true (composite_hasher (composite_crh gens)) (G1 pr) of_point G1_COFACTOR sqrt in
  let cip22 := g1_hash_cip22 true (composite_hasher (composite_crh gens)) (G1 pr) of_point G1_COFACTOR sqrt in
  ffi_batch_verify_signature direct composite cip22 (Msg (repeat 0 n) [1] k s :: ms) true f = Panics.
Proof.
  intros F L N composite cip22. destruct (selected_exists direct composite cip22 f) as [h S0].
  apply (C86_batch_limit pr direct of_point sqrt Bs gens f h _ F L S0). exists [], (Msg (repeat 0 n) [1] k s), ms. split; [reflexivity|]. split; [constructor|].
  cbn [m_data m_extra]. rewrite repeat_length. destruct f; cbn [length]; lia.
Qed.
Example ex_C86_batch_limit : let gens := repeat (segment_generators WINDOW_SIZE (edp ex_Q)) 560 in
  ffi_batch_verify_signature toy (g1_hash true (composite_hasher (composite_crh gens)) (G1 zr_pairing) (fun _ => toyH) G1_COFACTOR fq_sqrt)
    (g1_hash_cip22 true (composite_hasher (composite_crh gens)) (G1 zr_pairing) (fun _ => toyH) G1_COFACTOR fq_sqrt)
    [Msg (repeat 0 (Z.to_nat 19531)) [1] (to_public 3) (smul 3 toyH)] true true = Panics.
Proof.
  intros gens. apply (too_long_batch zr_pairing toy (fun _ => toyH) fq_sqrt (repeat ex_Q 560) gens true).
  - apply windows_repeat.
  - apply repeat_length.
  - rewrite Z2Nat.id; lia.
Qed.
(** Premises of C86_direct. *)
Example ex_C86_direct : Forall (fun q => Z.of_nat (pair_count (fst q)) <= usize_max /\ strict_draw (pair_count (fst q)) (snd q)) [(good_batch, toy_draw 255 1)].
Proof. constructor; [split; [vm_compute; discriminate|apply toy_strict_draw; lia]|constructor]. Qed.
(** Premises of C86_order: a valid and an invalid signature, in both orders. *)
Example ex_C86_order : let m1 := Msg [1] [9] (to_public 3) (smul 3 toyH) in let m2 := Msg [255] [9] (to_public 3) gz in
  Permutation [m1; m2] [m2; m1] /\ ffi_batch_verify_signature panicky toy2 toy3 [m1; m2] false false <> Panics /\
  ffi_batch_verify_signature panicky toy2 toy3 [m2; m1] false false <> Panics.
Proof. intros m1 m2. split; [apply perm_swap|]. split; discriminate. Qed.
