(** C72: batch verification through the C interface, from bytes to answers. *)
From Coq Require Import Permutation.
From Verif Require Import Base Constants Group Field Curve BlsModel PointModel EncodingModel HasherModel HashCurveModel HashCurveSpec CodecModel CodecSpec FfiModel FfiSpec CurveGroups OrderSpec TwistSpec RealSpec RealModel RealBatchModel RealBatchSpec RealBatchProofs.

(** batch_verify_signature answers true exactly when the keys encode multiples sk_i of the generator, and the signatures, added up, are the sum of the sk_i H_i. *)
Theorem C72_batch_verify : forall (GT : grp) (e : g1_point -> g2_point -> GT) (L : bilinear e) compat ped sqrt sqrt2,
  (forall m out, ped m = Ok out -> is_bytes out = true) -> sqrt_spec qmul sqrt -> sqrt_spec q2mul sqrt2 ->
  forall l c f, forallb is_bytes (map i_key l) = true -> forallb is_bytes (map i_sig l) = true ->
  c_batch_verify GT e L compat ped sqrt sqrt2 l c f = Some true <->
  (f = true -> c = true) /\
  exists ks Ss, Forall2 (keyed (hashed compat ped sqrt c f SIG_DOMAIN)) l ks /\ Forall2 (fun i S => sig_bytes (i_sig i) S) l Ss /\
    g1_sum Ss = g1_sum (map (fun '(sk, H) => g1_times sk H) ks).
Proof. exact batch_verify_iff_c. Qed.
(** Items accepted one by one are accepted together. *)
Theorem C72_batch_complete : forall (GT : grp) (e : g1_point -> g2_point -> GT) (L : bilinear e) compat ped sqrt sqrt2,
  (forall m out, ped m = Ok out -> is_bytes out = true) -> sqrt_spec qmul sqrt -> sqrt_spec q2mul sqrt2 ->
  forall l c f, (f = true -> c = true) ->
  Forall (fun i => is_bytes (i_key i) = true /\ is_bytes (i_sig i) = true /\
    c_verify GT e L compat ped sqrt sqrt2 (i_key i) (i_sig i) (i_msg i) (i_extra i) c f = Some true) l ->
  c_batch_verify GT e L compat ped sqrt sqrt2 l c f = Some true.
Proof. exact batch_complete_c. Qed.
(** Which signature belongs to which item does not matter to batch_verify_signature, *)
Theorem C72_batch_unordered : forall (GT : grp) (e : g1_point -> g2_point -> GT) (L : bilinear e) compat ped sqrt sqrt2,
  (forall m out, ped m = Ok out -> is_bytes out = true) -> sqrt_spec qmul sqrt -> sqrt_spec q2mul sqrt2 ->
  forall l sigs c f, forallb is_bytes (map i_key l) = true -> forallb is_bytes (map i_sig l) = true -> Permutation (map i_sig l) sigs ->
  c_batch_verify GT e L compat ped sqrt sqrt2 l c f = Some true -> c_batch_verify GT e L compat ped sqrt sqrt2 (reassign l sigs) c f = Some true.
Proof. exact unordered_c. Qed.
(** so that it accepts items no one of which need be accepted alone. *)
Theorem C72_batch_screens_only : forall (GT : grp) (e : g1_point -> g2_point -> GT) (L : bilinear e) compat ped sqrt sqrt2,
  (forall m out, ped m = Ok out -> is_bytes out = true) -> sqrt_spec qmul sqrt -> sqrt_spec q2mul sqrt2 ->
  forall pk1 sig1 pk2 sig2 m x c f, is_bytes pk1 = true -> is_bytes sig1 = true -> is_bytes pk2 = true -> is_bytes sig2 = true ->
  ~ wire_g2 (number (firstn 96 pk1)) None -> firstn 48 sig1 <> firstn 48 sig2 ->
  c_verify GT e L compat ped sqrt sqrt2 pk1 sig1 m x c f = Some true -> c_verify GT e L compat ped sqrt sqrt2 pk2 sig2 m x c f = Some true ->
  c_batch_verify GT e L compat ped sqrt sqrt2 [Item pk1 sig2 m x; Item pk2 sig1 m x] c f = Some true /\
  c_verify GT e L compat ped sqrt sqrt2 pk1 sig2 m x c f <> Some true.
Proof. exact screening_c. Qed.
(** batch_verify_strict: every slot is the answer for that batch alone, and the result says whether all are true. *)
Theorem C72_strict_slots : forall (GT : grp) (e : g1_point -> g2_point -> GT) (L : bilinear e) compat ped sqrt sqrt2,
  forall l c f b slots, c_batch_strict GT e L compat ped sqrt sqrt2 l c f = Some (b, slots) <->
  b = forallb (fun s => s) slots /\ Forall2 (fun q s => c_batch_strict GT e L compat ped sqrt sqrt2 [q] c f = Some (s, [s])) l slots.
Proof. exact strict_split_c. Qed.
(** Pairs that verify_signature accepts are accepted for all random bytes, *)
Theorem C72_strict_complete : forall (GT : grp) (e : g1_point -> g2_point -> GT) (L : bilinear e) compat ped sqrt sqrt2,
  (forall m out, ped m = Ok out -> is_bytes out = true) -> sqrt_spec qmul sqrt -> sqrt_spec q2mul sqrt2 ->
  forall l c f, Forall (good_lot (c_verify GT e L compat ped sqrt sqrt2) c f) l ->
  c_batch_strict GT e L compat ped sqrt sqrt2 l c f = Some (true, repeat true (length l)).
Proof. exact strict_complete_c. Qed.
(** and a batch with a pair that verify_signature does not accept passes for at most a 2^-(8k) fraction of the random bytes, k >= 16 the bytes per pair. *)
Theorem C72_strict_sound : forall (GT : grp) (e : g1_point -> g2_point -> GT) (L : bilinear e) compat ped sqrt sqrt2,
  forall q c f (draws : list (list bytes)), Z.of_nat (length (pairs q)) <= usize_max ->
  ~ Forall (fun '(pk, sig) => c_verify GT e L compat ped sqrt sqrt2 pk sig (l_msg q) (l_extra q) c f = Some true) (pairs q) -> NoDup draws ->
  (forall rnd, In rnd draws -> strict_draw (length (pairs q)) rnd /\ exists slots, c_batch_strict GT e L compat ped sqrt sqrt2 [(q, rnd)] c f = Some (true, slots)) ->
  Z.of_nat (length draws) * 2 ^ (8 * ((128 + Z.log2_up (Z.of_nat (length (pairs q))) + 7) / 8)) <=
  2 ^ (8 * ((128 + Z.log2_up (Z.of_nat (length (pairs q))) + 7) / 8) * Z.of_nat (length (pairs q))).
Proof. exact strict_sound_c. Qed.
Print Assumptions C72_batch_verify.
Print Assumptions C72_batch_complete.
Print Assumptions C72_batch_unordered.
Print Assumptions C72_batch_screens_only.
Print Assumptions C72_strict_slots.
Print Assumptions C72_strict_complete.
Print Assumptions C72_strict_sound.
