(** C61: the collision-resistant hash behind the composite hasher, its parameters and its length limit. *)
From Verif Require Import Base Constants Group Field Curve BlsModel EncodingModel EncodingSpec HasherModel PointModel HashCurveModel HashCurveSpec
  FfiModel FfiSpec HashGadgetModel Edwards PedersenModel PedersenSpec PedersenProofs PedersenUse.

(** The digest is the x coordinate, in 48 little-endian bytes, of the combination of the bases whose scalars are the
    base-16 digit strings of the message; nothing else is returned, and it is returned exactly up to 19530 bytes. *)
Theorem C61_value : forall (Bs : list ed_grp) gens (m out : bytes),
  Forall2 window_of Bs gens -> length Bs = 560%nat -> is_bytes m = true ->
  composite_crh gens m = Ok out <->
  Z.of_nat (length m) <= 19530 /\ is_bytes out = true /\ length out = 48%nat /\
  number out = fqv (fst (edp (combination (coefficients m) Bs))).
Proof. exact crh_output. Qed.
Theorem C61_limit : forall (Bs : list ed_grp) gens (m : bytes),
  Forall2 window_of Bs gens -> length Bs = 560%nat ->
  (composite_crh gens m = Panic <-> 19530 < Z.of_nat (length m)) /\
  (Z.of_nat (length m) <= 19530 -> exists out, composite_crh gens m = Ok out).
Proof. intros Bs gens m F L. split; [apply (crh_panic Bs); assumption|apply (crh_shape Bs gens m F L)]. Qed.
(** Whatever the parameters, a digest is 48 bytes. *)
Theorem C61_digest_bytes : forall gens m out, composite_crh gens m = Ok out -> is_bytes out = true /\ length out = 48%nat.
Proof. exact crh_bytes. Qed.
(** The scalars determine the message, whatever its length. *)
Theorem C61_scalars_injective : forall m m', is_bytes m = true -> is_bytes m' = true ->
  Z.of_nat (length m) <= 19530 -> Z.of_nat (length m') <= 19530 -> coefficients m = coefficients m' -> m = m'.
Proof. exact coefficients_inj. Qed.
(** Two different messages (of equal or different length) with the same digest give a non-trivial relation between
    the bases, with scalars below 2^373. *)
Theorem C61_collision : forall (Bs : list ed_grp) gens m m' out,
  Forall2 window_of Bs gens -> length Bs = 560%nat -> is_bytes m = true -> is_bytes m' = true ->
  m <> m' -> composite_crh gens m = Ok out -> composite_crh gens m' = Ok out -> exists ds, relation ds Bs.
Proof. exact collision. Qed.
(** With bases of odd order, dropping the y coordinate loses nothing. *)
Theorem C61_collision_odd_order : forall n (Bs : list ed_grp) gens m m' out,
  Z.odd n = true -> Forall (fun B => smul n B = gz) Bs ->
  Forall2 window_of Bs gens -> length Bs = 560%nat -> is_bytes m = true -> is_bytes m' = true ->
  composite_crh gens m = Ok out -> composite_crh gens m' = Ok out ->
  combination (coefficients m) Bs = combination (coefficients m') Bs.
Proof. exact collision_odd. Qed.
(** The empty message has the all-zero digest under every parameters. *)
Theorem C61_empty_message : forall (Bs : list ed_grp) gens, Forall2 window_of Bs gens -> length Bs = 560%nat ->
  composite_crh gens [] = Ok (repeat 0 48).
Proof. exact empty_hash. Qed.

(** ** The parameters *)
(** Whatever the seed, the parameters that [setup] returns are 560 windows over bases that are eight times a point of
    the curve. *)
Theorem C61_setup : forall key sqrt fuel gens, sqrt_spec qmul sqrt -> crh_setup key sqrt fuel = Some gens ->
  exists Bs : list ed_grp, length Bs = 560%nat /\ Forall (fun B => exists Q, B = smul 8 Q) Bs /\ Forall2 window_of Bs gens.
Proof. exact setup_spec. Qed.
(** The same for any number of windows, from any position of the stream. *)
Theorem C61_bases : forall key sqrt windows fuel n l, sqrt_spec qmul sqrt -> create_bases key sqrt windows fuel n = Some l ->
  exists Qs : list ed_grp, length Qs = windows /\ l = map (fun Q : ed_grp => edp (smul 8 Q)) Qs.
Proof. intros key sqrt w f n l H. apply create_bases_on. exact H. Qed.
(** They depend on the seed alone: not on which square root the field library returns, nor on when it gave up. *)
Theorem C61_setup_deterministic : forall key sqrt sqrt' fuel fuel' gens gens', sqrt_spec qmul sqrt -> sqrt_spec qmul sqrt' ->
  crh_setup key sqrt fuel = Some gens -> crh_setup key sqrt' fuel' = Some gens' -> gens = gens'.
Proof. exact setup_unique. Qed.
(** A sampled x and sign yield the one point of the curve with that x and sign, if there is one. *)
Theorem C61_point_from_x : forall sqrt x greatest P, sqrt_spec qmul sqrt ->
  ed_point_from_x sqrt x greatest = Some P <->
  exists y, P = (x, y) /\ ed_on P = true /\ (if greatest then fqv (qopp y) <= fqv y else fqv y <= fqv (qopp y)).
Proof. exact ed_from_x_iff. Qed.

(** ** The length limit in the functions built on the hash *)
Theorem C61_hash_limits : forall compat (E : grp) of_point cofactor sqrt (Bs : list ed_grp) gens,
  Forall2 window_of Bs gens -> length Bs = 560%nat -> forall d (m x : bytes), (length d <= 8)%nat ->
  (g1_hash compat (composite_hasher (composite_crh gens)) E of_point cofactor sqrt d m x = Panic <-> 19530 <= Z.of_nat (length x) + Z.of_nat (length m)) /\
  (g1_hash_cip22 compat (composite_hasher (composite_crh gens)) E of_point cofactor sqrt d m x = Panic <-> 19530 < Z.of_nat (length m)).
Proof. exact hash_panic. Qed.
(** No C entry point that hashes with the composite hasher returns on longer input; every one does on shorter input. *)
Theorem C61_ffi_hash_limits : forall (E : grp) of_point sqrt rep_of (Bs : list ed_grp) gens m x n,
  Forall2 window_of Bs gens -> length Bs = 560%nat ->
  (ffi_hash_crh (composite_crh gens) m n = Panics <-> 19530 < Z.of_nat (length m)) /\
  (ffi_hash_composite E of_point sqrt rep_of (composite_crh gens) m x = Panics <-> 19530 <= Z.of_nat (length x) + Z.of_nat (length m)) /\
  (ffi_hash_composite_cip22 E of_point sqrt rep_of (composite_crh gens) m x = Panics <-> 19530 < Z.of_nat (length m)).
Proof. exact ffi_hash_panics. Qed.
(** [cip22]: whether the CIP22 flag is set beside the composite flag. *)
Theorem C61_ffi_signature_limits : forall pr (direct : BlsModel.hasher pr) of_point sqrt (Bs : list ed_grp) gens (cip22 : bool) sk pk s (m x : bytes),
  Forall2 window_of Bs gens -> length Bs = 560%nat ->
  let composite := g1_hash true (composite_hasher (composite_crh gens)) (G1 pr) of_point G1_COFACTOR sqrt in
  let composite_cip22 := g1_hash_cip22 true (composite_hasher (composite_crh gens)) (G1 pr) of_point G1_COFACTOR sqrt in
  (ffi_sign_message direct composite composite_cip22 sk m x true cip22 = Panics <->
   19530 < Z.of_nat (length m) + (if cip22 then 0 else 1 + Z.of_nat (length x))) /\
  (ffi_verify_signature direct composite composite_cip22 pk m x s true cip22 = Panics <->
   19530 < Z.of_nat (length m) + (if cip22 then 0 else 1 + Z.of_nat (length x))).
Proof. exact ffi_panics. Qed.
(** An epoch block can be hashed exactly up to 206 validators, padding included; the older encoding likewise. *)
Theorem C61_block_limit : forall (Bs : list ed_grp) gens b m e,
  Forall2 window_of Bs gens -> length Bs = 560%nat -> wf_block b -> enc_signed b = Ok (m, e) ->
  composite_crh gens m = Panic <-> 206 < Z.of_nat (length (padded_keys b)).
Proof. exact block_limit. Qed.
Theorem C61_block_limit_plain : forall (Bs : list ed_grp) gens b o counter,
  Forall2 window_of Bs gens -> length Bs = 560%nat -> wf_block b -> enc_plain b = Ok o ->
  composite_crh gens (counter :: o) = Panic <-> 206 < Z.of_nat (length (eb_keys b)).
Proof. exact block_limit_plain. Qed.
(** The circuit model takes the Pedersen hash as a parameter; with this instance its native counterpart is the
    composite hasher's inner hash. *)
Theorem C61_circuit_parameter : forall gens m, native_ped (crh_x gens) m = composite_crh gens m.
Proof. exact crh_x_native. Qed.

Print Assumptions C61_value.
Print Assumptions C61_limit.
Print Assumptions C61_digest_bytes.
Print Assumptions C61_scalars_injective.
Print Assumptions C61_collision.
Print Assumptions C61_collision_odd_order.
Print Assumptions C61_empty_message.
Print Assumptions C61_setup.
Print Assumptions C61_bases.
Print Assumptions C61_setup_deterministic.
Print Assumptions C61_point_from_x.
Print Assumptions C61_hash_limits.
Print Assumptions C61_ffi_hash_limits.
Print Assumptions C61_ffi_signature_limits.
Print Assumptions C61_block_limit.
Print Assumptions C61_block_limit_plain.
Print Assumptions C61_circuit_parameter.
