(** C84: batch_verify_signature screens: an accepted batch may contain wrong signatures (C72), but no message that the owner of an honest key did not sign.
    [answers A Y X]: X is a times Y, where A is a times the generator of G2.  [plays hash proof A Y i q]: the item's key and the hash of its message are of the kind q: the honest key A
    with a hash that is a known multiple of Y (Unsigned) or of the generator (Signed), a key with an accepted proof of possession (Proved), a key whose private key is known (Known). *)
From Verif Require Import Base Constants Group Field Curve BlsModel PointModel EncodingModel HashCurveSpec CodecModel CodecSpec FfiModel CurveGroups OrderSpec TwistSpec
  RealSpec RealModel RealBatchModel RealBatchSpec ReductionSpec ScreenSpec ScreenProofs.

(** a times Y is computed from the signatures of the batch, whatever the single ones are, from a times the generator and from the proofs of possession,
    unless the multiples of Y for the honest key add up to 0. *)
Theorem C84_screening : forall (GT : grp) (e : g1_point -> g2_point -> GT) (L : bilinear e) compat ped sqrt sqrt2,
  (forall m out, ped m = Ok out -> is_bytes out = true) -> sqrt_spec qmul sqrt -> sqrt_spec q2mul sqrt2 ->
  forall l c f A Y B qs Ss, forallb is_bytes (map i_key l) = true -> forallb is_bytes (map i_sig l) = true -> in_g1 Y -> answers A g1_generator B ->
  Forall2 (plays (hashed compat ped sqrt c f SIG_DOMAIN) (proved (hashed compat ped sqrt) (c_verify_pop GT e L compat sqrt sqrt2) Y) A Y) l qs ->
  Forall2 (fun i S => sig_bytes (i_sig i) S) l Ss -> 0 < weight qs ->
  c_batch_verify GT e L compat ped sqrt sqrt2 l c f = Some true -> answers A Y (screened B Ss qs).
Proof. exact screening. Qed.
(** A batch with a message that was not signed: one item of the honest key with a hash that is k times Y, and nothing known about its signature. *)
Theorem C84_unsigned_message : forall (GT : grp) (e : g1_point -> g2_point -> GT) (L : bilinear e) compat ped sqrt sqrt2,
  (forall m out, ped m = Ok out -> is_bytes out = true) -> sqrt_spec qmul sqrt -> sqrt_spec q2mul sqrt2 ->
  forall i l c f A Y B k qs Ss, forallb is_bytes (map i_key (i :: l)) = true -> forallb is_bytes (map i_sig (i :: l)) = true -> in_g1 Y -> answers A g1_generator B ->
  key_bytes (i_key i) A -> 0 < k < r -> hashed compat ped sqrt c f SIG_DOMAIN (i_msg i) (i_extra i) (g1_times k Y) ->
  Forall2 (plays (hashed compat ped sqrt c f SIG_DOMAIN) (proved (hashed compat ped sqrt) (c_verify_pop GT e L compat sqrt sqrt2) Y) A Y) l qs -> Forall (fun q => unsigned q = 0) qs ->
  Forall2 (fun i S => sig_bytes (i_sig i) S) (i :: l) Ss ->
  c_batch_verify GT e L compat ped sqrt sqrt2 (i :: l) c f = Some true ->
  answers A Y (divided k (g1_add (g1_sum Ss) (g1_neg (g1_sum (map (share B) qs))))).
Proof. exact unsigned_message. Qed.
Print Assumptions C84_screening.
Print Assumptions C84_unsigned_message.
