(** C73: key generation. *)
From Verif Require Import Base Constants Group Field Curve BlsModel PointModel EncodingModel HashCurveSpec CodecModel FfiModel CurveGroups OrderSpec TwistSpec RealSpec RealModel KeygenModel KeygenSpec KeygenProofs.

(** A generated key is below the group order, *)
Theorem C73_range : forall d k, generate d = Some k -> 0 <= k < r.
Proof. exact generate_range. Qed.
(** and every such number comes out of the same number of strings of [n] draws: of the (2^256)^n strings, all but (2^256 - 8r)^n give a key,
    each of the r keys equally often. *)
Theorem C73_uniform : forall n k L, 0 <= k < r -> lists_all (fun d => draws n d /\ generate d = Some k) L ->
  Z.of_nat (length L) * r = (2 ^ 256) ^ Z.of_nat n - (2 ^ 256 - 8 * r) ^ Z.of_nat n.
Proof. exact uniform_c. Qed.
Theorem C73_every_key : forall k, 0 <= k < r -> exists d, draw d /\ generate [d] = Some k.
Proof. exact every_key. Qed.
(** The loop is still running after [n] draws in less than one in 2^n cases. *)
Theorem C73_running : forall n L, lists_all (fun d => draws n d /\ generate d = None) L ->
  Z.of_nat (length L) = (2 ^ 256 - 8 * r) ^ Z.of_nat n /\ Z.of_nat (length L) * 2 ^ Z.of_nat n <= (2 ^ 256) ^ Z.of_nat n.
Proof. intros n L H. split; [exact (running_c n L H)|exact (running_half n L H)]. Qed.
(** The key handed out through the C interface and serialized: its 32 bytes, little-endian. *)
Theorem C73_bytes : forall d out, c_generate d = Some out <->
  exists k, generate d = Some k /\ is_bytes out = true /\ length out = 32%nat /\ number out = k.
Proof. exact c_generate_iff. Qed.
(** It has a public key, signs every message that has a hash, and the signature is accepted. *)
Theorem C73_usable : forall (GT : grp) (e : g1_point -> g2_point -> GT) (L : bilinear e) compat ped sqrt sqrt2,
  (forall m out, ped m = Ok out -> is_bytes out = true) -> sqrt_spec qmul sqrt -> sqrt_spec q2mul sqrt2 ->
  forall d sk, c_generate d = Some sk -> exists pk, c_public_key GT e L sk = Some pk /\
    forall m x c f H, hashed compat ped sqrt c f SIG_DOMAIN m x H ->
    exists sig, c_sign GT e L compat ped sqrt sk m x c f = Some sig /\ c_verify GT e L compat ped sqrt sqrt2 pk sig m x c f = Some true.
Proof. exact usable_c. Qed.
(** Generated keys need not be non-zero: some draw gives a key with one signature for all messages. *)
Theorem C73_nonzero_refuted : forall (GT : grp) (e : g1_point -> g2_point -> GT) (L : bilinear e) compat ped sqrt sqrt2,
  (forall m out, ped m = Ok out -> is_bytes out = true) -> sqrt_spec qmul sqrt -> sqrt_spec q2mul sqrt2 ->
  exists d sk pk sig, draw d /\ c_generate [d] = Some sk /\ c_public_key GT e L sk = Some pk /\
    forall m x c f H, hashed compat ped sqrt c f SIG_DOMAIN m x H ->
    c_sign GT e L compat ped sqrt sk m x c f = Some sig /\ c_verify GT e L compat ped sqrt sqrt2 pk sig m x c f = Some true.
Proof. exact zero_key_c. Qed.
Print Assumptions C73_range.
Print Assumptions C73_uniform.
Print Assumptions C73_every_key.
Print Assumptions C73_running.
Print Assumptions C73_bytes.
Print Assumptions C73_usable.
Print Assumptions C73_nonzero_refuted.
