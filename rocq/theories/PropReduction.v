(** C81: whoever makes an accepted signature could compute a multiple that only the private key gives.
    [answers A Y X]: X is a times Y, where A is a times the generator of G2.  [divided k S]: S divided by k.  [proved ... Y o]: the proof of possession of o's
    key was accepted, and its message hashes to a known multiple of Y.  [extracted k S others]: S divided by k less the proofs divided by their factors. *)
From Verif Require Import Base Constants Group Field Curve BlsModel PointModel CacheModel CacheSpec EncodingModel HashCurveSpec CodecModel CodecSpec FfiModel CurveGroups OrderSpec TwistSpec
  RealSpec RealModel RealBatchSpec RealSessionModel RealSessionSpec ReductionSpec ReductionProofs.

(** One signature: if the message hashes to k times Y, the signature divided by k is the answer for Y. *)
Theorem C81_forgery : forall (GT : grp) (e : g1_point -> g2_point -> GT) (L : bilinear e) compat ped sqrt sqrt2,
  (forall m out, ped m = Ok out -> is_bytes out = true) -> sqrt_spec qmul sqrt -> sqrt_spec q2mul sqrt2 ->
  forall pk sig m x c f A S Y k, is_bytes pk = true -> is_bytes sig = true -> key_bytes pk A -> sig_bytes sig S -> in_g1 Y -> 0 < k < r ->
  hashed compat ped sqrt c f SIG_DOMAIN m x (g1_times k Y) -> c_verify GT e L compat ped sqrt sqrt2 pk sig m x c f = Some true -> answers A Y (divided k S).
Proof. exact one_answer. Qed.
(** Aggregates: if one key is honest and for each of the others a proof of possession was accepted, the answer for the honest key is computed
    from the aggregate signature and the proofs, whatever the others' keys are. *)
Theorem C81_aggregate_forgery : forall (GT : grp) (e : g1_point -> g2_point -> GT) (L : bilinear e) compat ped sqrt sqrt2,
  (forall m out, ped m = Ok out -> is_bytes out = true) -> sqrt_spec qmul sqrt -> sqrt_spec q2mul sqrt2 ->
  forall apk sig m x c f A S Y k others, is_bytes apk = true -> is_bytes sig = true -> in_g2 A ->
  key_bytes apk (fold_right g2_add None (A :: map o_point others)) -> sig_bytes sig S -> in_g1 Y -> 0 < k < r ->
  Forall (proved (hashed compat ped sqrt) (c_verify_pop GT e L compat sqrt sqrt2) Y) others ->
  hashed compat ped sqrt c f SIG_DOMAIN m x (g1_times k Y) -> c_verify GT e L compat ped sqrt sqrt2 apk sig m x c f = Some true ->
  answers A Y (extracted k S others).
Proof. exact aggregate_answer. Qed.
(** The same for the aggregate key as the C interface computes it from the bytes of different keys, whatever the process did before. *)
Theorem C81_aggregate_served : forall (GT : grp) (e : g1_point -> g2_point -> GT) (L : bilinear e) compat ped sqrt sqrt2,
  (forall m out, ped m = Ok out -> is_bytes out = true) -> sqrt_spec qmul sqrt -> sqrt_spec q2mul sqrt2 ->
  forall fh (qs : list (request sqrt2 fh)) o1 o2 b bs pk apk sig m x c f A S Y k others, Forall proper qs ->
  fair (E := real_cache sqrt2 fh) o1 -> fair (E := real_cache sqrt2 fh) o2 -> is_bytes pk = true -> is_bytes sig = true ->
  length bs = length others -> key_bytes pk A -> NoDup (A :: map o_point others) ->
  snd (serve (after qs) (Aggregate (sqrt2 := sqrt2) (fh := fh) o1 o2 (Given b pk :: map (fun '(b, o) => Given b (o_key o)) (combine bs others)))) = Some apk ->
  sig_bytes sig S -> in_g1 Y -> 0 < k < r ->
  Forall (proved (hashed compat ped sqrt) (c_verify_pop GT e L compat sqrt sqrt2) Y) others ->
  hashed compat ped sqrt c f SIG_DOMAIN m x (g1_times k Y) -> c_verify GT e L compat ped sqrt sqrt2 apk sig m x c f = Some true ->
  answers A Y (extracted k S others).
Proof. exact served_answer. Qed.
(** There is only one answer. *)
Theorem C81_one_answer : forall A Y X X', in_g1 Y -> answers A Y X -> answers A Y X' -> X = X'.
Proof. exact answers_unique. Qed.
(** The signatures and proofs that the honest owner gives away are no help: where the hash is a known multiple of the generator they are computed
    from a times the generator of G1, without the private key; *)
Theorem C81_signing_simulated : forall (GT : grp) (e : g1_point -> g2_point -> GT) (L : bilinear e) compat ped sqrt,
  (forall m out, ped m = Ok out -> is_bytes out = true) -> sqrt_spec qmul sqrt ->
  forall sk m x c f k, is_bytes sk = true -> (32 <= length sk)%nat -> number (firstn 32 sk) < r -> 0 <= k -> hashed compat ped sqrt c f SIG_DOMAIN m x (g1_times k g1_generator) ->
  c_sign GT e L compat ped sqrt sk m x c f = Some (signature_serialize (g1_times k (g1_times (number (firstn 32 sk)) g1_generator))).
Proof. exact simulated. Qed.
Theorem C81_possession_simulated : forall (GT : grp) (e : g1_point -> g2_point -> GT) (L : bilinear e) compat ped sqrt,
  (forall m out, ped m = Ok out -> is_bytes out = true) -> sqrt_spec qmul sqrt ->
  forall sk m k, is_bytes sk = true -> (32 <= length sk)%nat -> number (firstn 32 sk) < r -> 0 <= k -> hashed compat ped sqrt false false POP_DOMAIN m [] (g1_times k g1_generator) ->
  c_sign_pop GT e L compat sqrt sk m = Some (signature_serialize (g1_times k (g1_times (number (firstn 32 sk)) g1_generator))).
Proof. exact simulated_pop. Qed.
(** and every point that can be a hash is a multiple of either in exactly one way, so that uniform factors make uniform hashes (C76). *)
Theorem C81_factors : forall Y H, in_g1 Y -> Y <> None -> in_g1 H -> H <> None ->
  exists k, 0 < k < r /\ H = g1_times k Y /\ forall k', 0 < k' < r -> H = g1_times k' Y -> k' = k.
Proof. exact multiple. Qed.
Print Assumptions C81_forgery.
Print Assumptions C81_aggregate_forgery.
Print Assumptions C81_aggregate_served.
Print Assumptions C81_one_answer.
Print Assumptions C81_signing_simulated.
Print Assumptions C81_possession_simulated.
Print Assumptions C81_factors.
