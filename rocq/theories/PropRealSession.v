(** C74: aggregating and subtracting public keys through the C interface, from bytes to bytes, with a cache shared by all calls of a process.
    [given]: the bytes of a key and whether they are read through the cache.  [proper]: the hash sets are visited completely, the keys are bytes.
    [owed q out]: what the bytes in the request [q] alone determine. *)
From Coq Require Import Permutation.
From Verif Require Import Base Constants Group Field Curve BlsModel PointModel CacheModel CacheSpec EncodingModel HashCurveSpec CodecModel CodecSpec FfiModel CurveGroups OrderSpec TwistSpec RealSpec RealModel RealBatchSpec RealSessionModel RealSessionSpec RealSessionProofs.

(** Whatever the requests, each is answered as if it were alone. *)
Theorem C74_every_answer : forall sqrt2 fh, sqrt_spec q2mul sqrt2 ->
  forall qs : list (request sqrt2 fh), Forall proper qs ->
  Forall2 (fun q answer => forall out, answer = Some out <-> owed q out) qs (answers cache_new qs).
Proof. intros sqrt2 fh S qs. exact (answers_owed sqrt2 fh S qs cache_new (reach_new sqrt2 fh)). Qed.
(** The same when other threads use the cache between any two calls of the request (the mutex is held for one call at a time): with each
    key come the operations [fst k] that others perform on the cache before it is read, and [h] before the keys are aggregated. *)
Theorem C74_amid_other_threads : forall sqrt2 fh, sqrt_spec q2mul sqrt2 ->
  forall (qs : list (request sqrt2 fh)) o1 o2 ks h out, Forall proper qs -> fair o1 -> fair o2 ->
  Forall (fun k => Forall fair_op (fst k) /\ is_bytes (g_bytes (snd k)) = true) ks -> Forall fair_op h ->
  aggregate_amid o1 o2 (after qs) ks h = Some out <-> owed (Aggregate (sqrt2 := sqrt2) (fh := fh) o1 o2 (map snd ks)) out.
Proof. intros sqrt2 fh S qs o1 o2 ks h out F. exact (aggregate_amid_spec sqrt2 fh S o1 o2 (after qs) ks h out (reach_after sqrt2 fh S qs F)). Qed.
Theorem C74_subtract_amid_other_threads : forall sqrt2 fh, sqrt_spec q2mul sqrt2 ->
  forall (qs : list (request sqrt2 fh)) o1 o2 a ks h out, Forall proper qs -> fair o1 -> fair o2 ->
  Forall (fun k => Forall fair_op (fst k) /\ is_bytes (g_bytes (snd k)) = true) (a :: ks) -> Forall fair_op h ->
  subtract_amid o1 o2 (after qs) a ks h = Some out <-> owed (Subtract (sqrt2 := sqrt2) (fh := fh) o1 o2 (snd a) (map snd ks)) out.
Proof. intros sqrt2 fh S qs o1 o2 a ks h out F. exact (subtract_amid_spec sqrt2 fh S o1 o2 (after qs) a ks h out (reach_after sqrt2 fh S qs F)). Qed.
(** There is an answer as soon as every key can be read; no key needs to be part of what it is subtracted from. *)
Theorem C74_answered : forall sqrt2 fh, sqrt_spec q2mul sqrt2 ->
  forall (qs : list (request sqrt2 fh)) o1 o2 a ks, Forall proper qs -> proper (Subtract o1 o2 a ks) ->
  (exists out, snd (serve (after qs) (Subtract o1 o2 a ks)) = Some out) <->
  Forall (fun k => exists P, key_bytes (g_bytes k) P) (a :: ks).
Proof. exact subtract_answered. Qed.
Theorem C74_aggregate_answered : forall sqrt2 fh, sqrt_spec q2mul sqrt2 ->
  forall (qs : list (request sqrt2 fh)) o1 o2 ks, Forall proper qs -> proper (Aggregate o1 o2 ks) ->
  (exists out, snd (serve (after qs) (Aggregate o1 o2 ks)) = Some out) <->
  Forall (fun k => exists P, key_bytes (g_bytes k) P) ks.
Proof. exact aggregate_answered. Qed.
(** The answer does not depend on earlier requests, on the order or repetition of the keys, on what follows their first 96 bytes, on the
    use of the cache for reading, or on the order in which sets are visited. *)
Theorem C74_same_keys_same_sum : forall sqrt2 fh, sqrt_spec q2mul sqrt2 ->
  forall (qs qs' : list (request sqrt2 fh)) o1 o2 o1' o2' ks ks', Forall proper qs -> Forall proper qs' ->
  proper (Aggregate (sqrt2 := sqrt2) (fh := fh) o1 o2 ks) -> proper (Aggregate (sqrt2 := sqrt2) (fh := fh) o1' o2' ks') -> same_keys ks ks' ->
  snd (serve (after qs) (Aggregate o1 o2 ks)) = snd (serve (after qs') (Aggregate o1' o2' ks')).
Proof. exact same_answer. Qed.
Theorem C74_same_keys_same_difference : forall sqrt2 fh, sqrt_spec q2mul sqrt2 ->
  forall (qs qs' : list (request sqrt2 fh)) o1 o2 o1' o2' a a' ks ks', Forall proper qs -> Forall proper qs' ->
  proper (Subtract (sqrt2 := sqrt2) (fh := fh) o1 o2 a ks) -> proper (Subtract (sqrt2 := sqrt2) (fh := fh) o1' o2' a' ks') ->
  key_part a = key_part a' -> same_keys ks ks' ->
  snd (serve (after qs) (Subtract o1 o2 a ks)) = snd (serve (after qs') (Subtract o1' o2' a' ks')).
Proof. exact same_difference. Qed.
(** The aggregate key of all, minus the keys of those who did not sign, accepts the aggregate of the signatures of those who did. *)
Theorem C74_signers : forall (GT : grp) (e : g1_point -> g2_point -> GT) (L : bilinear e) compat ped sqrt sqrt2,
  (forall m out, ped m = Ok out -> is_bytes out = true) -> sqrt_spec qmul sqrt -> sqrt_spec q2mul sqrt2 ->
  forall fh (qs qs' : list (request sqrt2 fh)) o1 o2 o1' o2' all absent present sigs b rest apk m x c f,
  Forall proper qs -> Forall proper qs' -> proper (Aggregate (sqrt2 := sqrt2) (fh := fh) o1 o2 all) ->
  fair (E := real_cache sqrt2 fh) o1' -> fair (E := real_cache sqrt2 fh) o2' -> is_bytes rest = true ->
  Forall (fun k => is_bytes (g_bytes k) = true) absent -> forallb is_bytes present = true -> forallb is_bytes sigs = true ->
  NoDup (map key_part all) -> Forall (fun k => ~ wire_g2 (number (key_part k)) None) all ->
  Permutation (map key_part all) (map (firstn 96) present ++ map key_part absent) -> present <> [] ->
  Forall2 (fun pk sig => c_verify GT e L compat ped sqrt sqrt2 pk sig m x c f = Some true) present sigs ->
  snd (serve (after qs) (Aggregate o1 o2 all)) = Some apk ->
  exists spk asig, snd (serve (after qs') (Subtract o1' o2' (Given b (apk ++ rest)) absent)) = Some spk /\
    c_aggregate GT e L sqrt sigs = Some asig /\ c_verify GT e L compat ped sqrt sqrt2 spk asig m x c f = Some true.
Proof. exact signers_c. Qed.
(** Subtracting the same key a second time is not noticed and gives a different key. *)
Theorem C74_subtract_again : forall sqrt2 fh, sqrt_spec q2mul sqrt2 ->
  forall (qs qs' : list (request sqrt2 fh)) o1 o2 o1' o2' a k b rest out, Forall proper qs -> Forall proper qs' ->
  proper (Subtract (sqrt2 := sqrt2) (fh := fh) o1 o2 a [k]) -> fair (E := real_cache sqrt2 fh) o1' -> fair (E := real_cache sqrt2 fh) o2' ->
  is_bytes rest = true -> ~ wire_g2 (number (key_part k)) None -> snd (serve (after qs) (Subtract o1 o2 a [k])) = Some out ->
  exists out', snd (serve (after qs') (Subtract o1' o2' (Given b (out ++ rest)) [k])) = Some out' /\ out' <> out.
Proof. exact subtract_again. Qed.
Print Assumptions C74_every_answer.
Print Assumptions C74_amid_other_threads.
Print Assumptions C74_subtract_amid_other_threads.
Print Assumptions C74_answered.
Print Assumptions C74_aggregate_answered.
Print Assumptions C74_same_keys_same_sum.
Print Assumptions C74_same_keys_same_difference.
Print Assumptions C74_signers.
Print Assumptions C74_subtract_again.
