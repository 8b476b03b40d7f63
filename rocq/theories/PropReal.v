(** C70: the signature scheme through the C interface, from bytes to bytes, on the groups of BLS12-377.  Nothing is asked of the curves;
    of the pairing, additivity in both arguments on G1 x G2 and a non-zero value at the generators; of the square roots, that they are square roots.
    [hashed c f d m x H]: the flags c (composite) and f (cip22) hash the message to H. *)
From Verif Require Import Base Constants Group Field Curve BlsModel PointModel CacheModel CacheSpec EncodingModel HashCurveSpec CodecModel CodecSpec FfiModel CurveGroups OrderSpec TwistSpec RealSpec RealModel RealProofs.

(** Reading a private key, computing the public key and writing it: the multiple of the generator by the number written in the first 32 bytes. *)
Theorem C70_public_key : forall (GT : grp) (e : g1_point -> g2_point -> GT) (L : bilinear e) sk out, is_bytes sk = true ->
  c_public_key GT e L sk = Some out <->
  (32 <= length sk)%nat /\ number (firstn 32 sk) < r /\ out = public_key_serialize (g2_times (number (firstn 32 sk)) g2_generator).
Proof. exact public_key_iff_c. Qed.
(** Reading it, signing and writing the signature: the multiple of the hash by the same number. *)
Theorem C70_sign : forall (GT : grp) (e : g1_point -> g2_point -> GT) (L : bilinear e) compat ped sqrt,
  (forall m out, ped m = Ok out -> is_bytes out = true) -> sqrt_spec qmul sqrt ->
  forall sk m x c f out, is_bytes sk = true ->
  c_sign GT e L compat ped sqrt sk m x c f = Some out <->
  exists H, (32 <= length sk)%nat /\ number (firstn 32 sk) < r /\ hashed compat ped sqrt c f SIG_DOMAIN m x H /\
    out = signature_serialize (g1_times (number (firstn 32 sk)) H).
Proof. exact sign_iff_c. Qed.
Theorem C70_sign_pop : forall (GT : grp) (e : g1_point -> g2_point -> GT) (L : bilinear e) compat ped sqrt,
  (forall m out, ped m = Ok out -> is_bytes out = true) -> sqrt_spec qmul sqrt ->
  forall sk m out, is_bytes sk = true ->
  c_sign_pop GT e L compat sqrt sk m = Some out <->
  exists H, (32 <= length sk)%nat /\ number (firstn 32 sk) < r /\ hashed compat ped sqrt false false POP_DOMAIN m [] H /\
    out = signature_serialize (g1_times (number (firstn 32 sk)) H).
Proof. exact sign_pop_iff_c. Qed.
(** Reading a key and a signature and verifying: accepted if and only if some private key has this public key and this signature. *)
Theorem C70_verify : forall (GT : grp) (e : g1_point -> g2_point -> GT) (L : bilinear e) compat ped sqrt sqrt2,
  (forall m out, ped m = Ok out -> is_bytes out = true) -> sqrt_spec qmul sqrt -> sqrt_spec q2mul sqrt2 ->
  forall pk sig m x c f, is_bytes pk = true -> is_bytes sig = true ->
  c_verify GT e L compat ped sqrt sqrt2 pk sig m x c f = Some true <->
  exists sk H, 0 <= sk < r /\ hashed compat ped sqrt c f SIG_DOMAIN m x H /\
    (96 <= length pk)%nat /\ wire_g2 (number (firstn 96 pk)) (g2_times sk g2_generator) /\
    (48 <= length sig)%nat /\ wire_g1 (number (firstn 48 sig)) (g1_times sk H).
Proof. exact verify_iff_c. Qed.
Theorem C70_verify_pop : forall (GT : grp) (e : g1_point -> g2_point -> GT) (L : bilinear e) compat ped sqrt sqrt2,
  (forall m out, ped m = Ok out -> is_bytes out = true) -> sqrt_spec qmul sqrt -> sqrt_spec q2mul sqrt2 ->
  forall pk sig m, is_bytes pk = true -> is_bytes sig = true ->
  c_verify_pop GT e L compat sqrt sqrt2 pk sig m = Some true <->
  exists sk H, 0 <= sk < r /\ hashed compat ped sqrt false false POP_DOMAIN m [] H /\
    (96 <= length pk)%nat /\ wire_g2 (number (firstn 96 pk)) (g2_times sk g2_generator) /\
    (48 <= length sig)%nat /\ wire_g1 (number (firstn 48 sig)) (g1_times sk H).
Proof. exact verify_pop_iff_c. Qed.
(** The answer is given whenever both can be read and the message can be hashed. *)
Theorem C70_verify_answers : forall (GT : grp) (e : g1_point -> g2_point -> GT) (L : bilinear e) compat ped sqrt sqrt2,
  (forall m out, ped m = Ok out -> is_bytes out = true) -> sqrt_spec qmul sqrt -> sqrt_spec q2mul sqrt2 ->
  forall pk sig m x c f P S H, is_bytes pk = true -> is_bytes sig = true -> hashed compat ped sqrt c f SIG_DOMAIN m x H ->
  (96 <= length pk)%nat -> wire_g2 (number (firstn 96 pk)) P -> in_g2 P ->
  (48 <= length sig)%nat -> wire_g1 (number (firstn 48 sig)) S -> in_g1 S ->
  exists b, c_verify GT e L compat ped sqrt sqrt2 pk sig m x c f = Some b /\
    (b = true <-> exists sk, 0 <= sk < r /\ P = g2_times sk g2_generator /\ S = g1_times sk H).
Proof. exact verify_decides. Qed.
(** What is signed is accepted, whatever follows in the buffers. *)
Theorem C70_round_trip : forall (GT : grp) (e : g1_point -> g2_point -> GT) (L : bilinear e) compat ped sqrt sqrt2,
  (forall m out, ped m = Ok out -> is_bytes out = true) -> sqrt_spec qmul sqrt -> sqrt_spec q2mul sqrt2 ->
  forall sk pk sig m x c f rest rest', is_bytes sk = true -> is_bytes rest = true -> is_bytes rest' = true ->
  c_public_key GT e L sk = Some pk -> c_sign GT e L compat ped sqrt sk m x c f = Some sig ->
  c_verify GT e L compat ped sqrt sqrt2 (pk ++ rest) (sig ++ rest') m x c f = Some true.
Proof. exact round_trip_c. Qed.
Theorem C70_round_trip_pop : forall (GT : grp) (e : g1_point -> g2_point -> GT) (L : bilinear e) compat (ped : bytes -> result bytes) sqrt sqrt2,
  (forall m out, ped m = Ok out -> is_bytes out = true) -> sqrt_spec qmul sqrt -> sqrt_spec q2mul sqrt2 ->
  forall sk pk sig m rest rest', is_bytes sk = true -> is_bytes rest = true -> is_bytes rest' = true ->
  c_public_key GT e L sk = Some pk -> c_sign_pop GT e L compat sqrt sk m = Some sig ->
  c_verify_pop GT e L compat sqrt sqrt2 (pk ++ rest) (sig ++ rest') m = Some true.
Proof. exact round_trip_pop_c. Qed.
(** One signature per key and message, byte for byte; *)
Theorem C70_unique_signature : forall (GT : grp) (e : g1_point -> g2_point -> GT) (L : bilinear e) compat ped sqrt sqrt2,
  (forall m out, ped m = Ok out -> is_bytes out = true) -> sqrt_spec qmul sqrt -> sqrt_spec q2mul sqrt2 ->
  forall pk sig sig' m x c f, is_bytes pk = true -> is_bytes sig = true -> is_bytes sig' = true ->
  ~ wire_g2 (number (firstn 96 pk)) None ->
  c_verify GT e L compat ped sqrt sqrt2 pk sig m x c f = Some true ->
  c_verify GT e L compat ped sqrt sqrt2 pk sig' m x c f = Some true -> firstn 48 sig = firstn 48 sig'.
Proof. exact unique_c. Qed.
(** and one key per signature and message. *)
Theorem C70_unique_key : forall (GT : grp) (e : g1_point -> g2_point -> GT) (L : bilinear e) compat ped sqrt sqrt2,
  (forall m out, ped m = Ok out -> is_bytes out = true) -> sqrt_spec qmul sqrt -> sqrt_spec q2mul sqrt2 ->
  forall pk pk' sig m x c f, is_bytes pk = true -> is_bytes pk' = true -> is_bytes sig = true ->
  ~ wire_g1 (number (firstn 48 sig)) None ->
  c_verify GT e L compat ped sqrt sqrt2 pk sig m x c f = Some true ->
  c_verify GT e L compat ped sqrt sqrt2 pk' sig m x c f = Some true -> firstn 96 pk = firstn 96 pk'.
Proof. exact key_unique_c. Qed.
(** Signatures of different keys on one message: the aggregate is accepted under the aggregate key, whatever the cache held before. *)
Theorem C70_aggregate : forall (GT : grp) (e : g1_point -> g2_point -> GT) (L : bilinear e) compat ped sqrt sqrt2,
  (forall m out, ped m = Ok out -> is_bytes out = true) -> sqrt_spec qmul sqrt -> sqrt_spec q2mul sqrt2 ->
  forall fh (h : list (cop (real_cache sqrt2 fh))) o1 o2 pks sigs m x c f, Forall fair_op h -> fair o1 -> fair o2 ->
  pks <> [] -> forallb is_bytes pks = true -> forallb is_bytes sigs = true ->
  Forall (fun pk => ~ wire_g2 (number (firstn 96 pk)) None) pks -> NoDup (map (firstn 96) pks) ->
  Forall2 (fun pk sig => c_verify GT e L compat ped sqrt sqrt2 pk sig m x c f = Some true) pks sigs ->
  exists pk sig, c_aggregate_keys sqrt2 fh h o1 o2 pks = Some pk /\ c_aggregate GT e L sqrt sigs = Some sig /\
    c_verify GT e L compat ped sqrt sqrt2 pk sig m x c f = Some true.
Proof. exact aggregate_c. Qed.
(** A key given twice with its signature given twice: the cache counts the key once, and the aggregate is rejected. *)
Theorem C70_aggregate_repeated_key_rejected : forall (GT : grp) (e : g1_point -> g2_point -> GT) (L : bilinear e) compat ped sqrt sqrt2,
  (forall m out, ped m = Ok out -> is_bytes out = true) -> sqrt_spec qmul sqrt -> sqrt_spec q2mul sqrt2 ->
  forall fh (h : list (cop (real_cache sqrt2 fh))) o1 o2 pk sig m x c f, Forall fair_op h -> fair o1 -> fair o2 ->
  is_bytes pk = true -> is_bytes sig = true -> ~ wire_g2 (number (firstn 96 pk)) None ->
  c_verify GT e L compat ped sqrt sqrt2 pk sig m x c f = Some true ->
  exists apk asig, c_aggregate_keys sqrt2 fh h o1 o2 [pk; pk] = Some apk /\ c_aggregate GT e L sqrt [sig; sig] = Some asig /\
    c_verify GT e L compat ped sqrt sqrt2 apk asig m x c f = Some false.
Proof. exact twice_c. Qed.
Print Assumptions C70_public_key.
Print Assumptions C70_sign.
Print Assumptions C70_sign_pop.
Print Assumptions C70_verify.
Print Assumptions C70_verify_pop.
Print Assumptions C70_verify_answers.
Print Assumptions C70_round_trip.
Print Assumptions C70_round_trip_pop.
Print Assumptions C70_unique_signature.
Print Assumptions C70_unique_key.
Print Assumptions C70_aggregate.
Print Assumptions C70_aggregate_repeated_key_rejected.
