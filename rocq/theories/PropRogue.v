(** C75: keys chosen to cancel others.  [rogue k Ps R]: R plus the keys Ps is the public key of k.  [complement k H S T]: T plus S is the signature of k
    on H.  [key_bytes l P]: the bytes l begin with an encoding of the point P of G2. *)
From Verif Require Import Base Constants Group Field Curve BlsModel PointModel CacheModel CacheSpec EncodingModel HashCurveSpec CodecModel CodecSpec FfiModel CurveGroups OrderSpec TwistSpec RealSpec RealModel RealBatchSpec RealSessionModel RealSessionSpec RogueSpec RogueProofs.

(** For any keys and any private key there is such a key; *)
Theorem C75_rogue_exists : forall k Ps, 0 <= k < r -> Forall in_g2 Ps -> exists R, rogue k Ps R.
Proof. exact rogue_exists. Qed.
(** aggregated with the keys of the others it gives the public key of [sk], and every signature of [sk] alone is accepted as the aggregate
    signature of all of them: an accepted aggregate does not say that the owners of the keys signed. *)
Theorem C75_aggregate_of_all_refuted : forall (GT : grp) (e : g1_point -> g2_point -> GT) (L : bilinear e) compat ped sqrt sqrt2,
  (forall m out, ped m = Ok out -> is_bytes out = true) -> sqrt_spec qmul sqrt -> sqrt_spec q2mul sqrt2 ->
  forall fh (qs : list (request sqrt2 fh)) o1 o2 b victims Ps R sk apk, Forall proper qs ->
  fair (E := real_cache sqrt2 fh) o1 -> fair (E := real_cache sqrt2 fh) o2 -> is_bytes sk = true ->
  Forall (fun v => is_bytes (g_bytes v) = true) victims -> Forall2 key_bytes (map g_bytes victims) Ps -> NoDup Ps -> ~ In R Ps ->
  rogue (number (firstn 32 sk)) Ps R -> c_public_key GT e L sk = Some apk ->
  snd (serve (after qs) (Aggregate (sqrt2 := sqrt2) (fh := fh) o1 o2 (Given b (public_key_serialize R) :: victims))) = Some apk /\
  forall m x c f sig, c_sign GT e L compat ped sqrt sk m x c f = Some sig -> c_verify GT e L compat ped sqrt sqrt2 apk sig m x c f = Some true.
Proof. exact rogue_accepted. Qed.
(** A proof of possession of such a key is a proof of possession of the sum of the others' keys on the same message, and conversely: whoever
    can make one can make the other. *)
Theorem C75_possession : forall (GT : grp) (e : g1_point -> g2_point -> GT) (L : bilinear e) compat ped sqrt sqrt2,
  (forall m out, ped m = Ok out -> is_bytes out = true) -> sqrt_spec qmul sqrt -> sqrt_spec q2mul sqrt2 ->
  forall k Ps R S T m H, 0 <= k < r -> Forall in_g2 Ps -> rogue k Ps R ->
  hashed compat ped sqrt false false POP_DOMAIN m [] H -> in_g1 S -> complement k H S T ->
  c_verify_pop GT e L compat sqrt sqrt2 (public_key_serialize R) (signature_serialize S) m = Some true <->
  c_verify_pop GT e L compat sqrt sqrt2 (public_key_serialize (fold_right g2_add None Ps)) (signature_serialize T) m = Some true.
Proof. exact pop_transfer. Qed.
(** So a proof of possession on a message that the owner of another key also proved possession on shows nothing: from the owner's proof and
    any [k] one gets an accepted proof for the rogue key. *)
Theorem C75_possession_same_message_refuted : forall (GT : grp) (e : g1_point -> g2_point -> GT) (L : bilinear e) compat ped sqrt sqrt2,
  (forall m out, ped m = Ok out -> is_bytes out = true) -> sqrt_spec qmul sqrt -> sqrt_spec q2mul sqrt2 ->
  forall k pk pop P S m H, 0 <= k < r -> is_bytes pk = true -> is_bytes pop = true -> key_bytes pk P -> sig_bytes pop S ->
  hashed compat ped sqrt false false POP_DOMAIN m [] H -> c_verify_pop GT e L compat sqrt sqrt2 pk pop m = Some true ->
  exists R T, rogue k [P] R /\ complement k H S T /\
    c_verify_pop GT e L compat sqrt sqrt2 (public_key_serialize R) (signature_serialize T) m = Some true.
Proof. exact pop_stolen. Qed.
Print Assumptions C75_rogue_exists.
Print Assumptions C75_aggregate_of_all_refuted.
Print Assumptions C75_possession.
Print Assumptions C75_possession_same_message_refuted.
