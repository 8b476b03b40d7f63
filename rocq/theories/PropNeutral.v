(** C88: what the point at infinity can do as a public key, through the C interface.
    [key_bytes l P]: the bytes l are read as the key P.  [serve (after qs) q]: the answer to the request q after the requests qs of the same process. *)
From Verif Require Import Base Constants Group Field Curve BlsModel PointModel CacheModel CacheSpec EncodingModel HashCurveSpec CodecModel CodecSpec FfiModel
  CurveGroups OrderSpec TwistSpec RealSpec RealModel RealBatchSpec RealSessionModel RealSessionSpec NeutralProofs.

(** It passes [verify_pop] for every message, with exactly the encodings of the neutral signature: nobody needs to possess anything. *)
Theorem C88_possession : forall (GT : grp) (e : g1_point -> g2_point -> GT) (L : bilinear e) compat ped sqrt sqrt2,
  (forall m out, ped m = Ok out -> is_bytes out = true) -> sqrt_spec qmul sqrt -> sqrt_spec q2mul sqrt2 ->
  forall pk, is_bytes pk = true -> key_bytes pk None -> forall sig m H, is_bytes sig = true -> hashed compat ped sqrt false false POP_DOMAIN m [] H ->
  c_verify_pop GT e L compat sqrt sqrt2 pk sig m = Some true <-> (48 <= length sig)%nat /\ wire_g1 (number (firstn 48 sig)) None.
Proof. exact neutral_pop. Qed.
(** The same strings are its signature on every message, under all flags. *)
Theorem C88_signature : forall (GT : grp) (e : g1_point -> g2_point -> GT) (L : bilinear e) compat ped sqrt sqrt2,
  (forall m out, ped m = Ok out -> is_bytes out = true) -> sqrt_spec qmul sqrt -> sqrt_spec q2mul sqrt2 ->
  forall pk, is_bytes pk = true -> key_bytes pk None -> forall sig m x c f H, is_bytes sig = true -> hashed compat ped sqrt c f SIG_DOMAIN m x H ->
  c_verify GT e L compat ped sqrt sqrt2 pk sig m x c f = Some true <-> (48 <= length sig)%nat /\ wire_g1 (number (firstn 48 sig)) None.
Proof. exact neutral_verify. Qed.
(** Whether it is among the keys that are aggregated or subtracted makes no difference to the answer, so what the others sign together it has signed too. *)
Theorem C88_aggregate : forall sqrt2 fh, sqrt_spec q2mul sqrt2 -> forall (qs : list (request sqrt2 fh)) o1 o2 k0 ks1 ks2, Forall proper qs ->
  proper (Aggregate (sqrt2 := sqrt2) (fh := fh) o1 o2 (ks1 ++ k0 :: ks2)) -> key_bytes (g_bytes k0) None ->
  snd (serve (after qs) (Aggregate o1 o2 (ks1 ++ k0 :: ks2))) = snd (serve (after qs) (Aggregate o1 o2 (ks1 ++ ks2))).
Proof. exact neutral_aggregate. Qed.
Theorem C88_subtract : forall sqrt2 fh, sqrt_spec q2mul sqrt2 -> forall (qs : list (request sqrt2 fh)) o1 o2 a k0 ks1 ks2, Forall proper qs ->
  proper (Subtract (sqrt2 := sqrt2) (fh := fh) o1 o2 a (ks1 ++ k0 :: ks2)) -> key_bytes (g_bytes k0) None ->
  snd (serve (after qs) (Subtract o1 o2 a (ks1 ++ k0 :: ks2))) = snd (serve (after qs) (Subtract o1 o2 a (ks1 ++ ks2))).
Proof. exact neutral_subtract. Qed.

Print Assumptions C88_possession.
Print Assumptions C88_signature.
Print Assumptions C88_aggregate.
Print Assumptions C88_subtract.
