(** When one signature is accepted under one key for two requests: what that would exhibit. *)
From Verif Require Import Base Constants Group Field Curve EncodingModel HasherModel PointModel HashCurveModel HashCurveSpec CurveGroups Edwards PedersenModel PedersenSpec.

(** [a] is what the expanding hash (BLAKE2Xs) is given at counter [n] for a message [m] with extra data [x], under the two flags:
    the BLAKE2s digest of n, x and m; their Bowe-Hopwood-Pedersen digest; n, x and the digest of the message alone. *)
Definition expanded (ped : bytes -> result bytes) (composite cip22 : bool) (d m x : bytes) (n : Z) (a : bytes) : Prop :=
  match composite, cip22 with
  | false, false => direct_crh d (n :: x ++ m) 64 = Ok a
  | true, false => ped (n :: x ++ m) = Ok a
  | true, true => exists i, ped m = Ok i /\ a = n :: x ++ i
  | false, true => False
  end.
(** The expansion of [a] in the domain [d] selects a point of the curve, and the cofactor times that point is [H], not zero. *)
Definition selects (compat : bool) (d a : bytes) (H : g1_point) : Prop :=
  exists out P, direct_xof d a 64 = Ok out /\ (48 <= length out)%nat /\ gives (denotes_g1 (g1_sign_bit compat)) g1_of G1_COFACTOR 48 out P /\ H = g1_to P.
(** Two different inputs of the expanding hash that lead to one point. *)
Definition clash (compat : bool) (d a d' a' : bytes) : Prop :=
  (d, a) <> (d', a') /\ exists H, H <> None /\ selects compat d a H /\ selects compat d' a' H.
(** The relation between the bases that two messages with one Bowe-Hopwood-Pedersen digest exhibit: with the differences of
    their scalars, or with twice the sums. *)
Definition differences (m m' : bytes) : list Z := map (fun i => coefficient m i - coefficient m' i) (seq 0 560).
Definition double_sums (m m' : bytes) : list Z := map (fun i => 2 * (coefficient m i + coefficient m' i)) (seq 0 560).
Definition linked (Bs : list ed_grp) (m m' : bytes) : Prop :=
  m <> m' /\ (relation (differences m m') Bs \/ relation (double_sums m m') Bs).
(** Two different inputs with one BLAKE2s digest (as the direct hasher sets its parameters). *)
Definition crh_collision (d m m' : bytes) : Prop := m <> m' /\ direct_crh d m 64 = direct_crh d m' 64.
(** A collision in the first of the two hashes, at counters [n] and [n']. *)
Definition inner_collision (Bs : list ed_grp) (composite cip22 : bool) (d m x m' x' : bytes) (n n' : Z) : Prop :=
  match composite, cip22 with
  | false, _ => crh_collision d (n :: x ++ m) (n' :: x' ++ m')
  | true, false => linked Bs (n :: x ++ m) (n' :: x' ++ m')
  | true, true => linked Bs m m'
  end.
(** What a signature speaks about: without CIP22 the extra data followed by the message, with it both. *)
Definition same_content (cip22 : bool) (m x m' x' : bytes) : Prop := if cip22 then m = m' /\ x = x' else x ++ m = x' ++ m'.
(** A clash of the inputs that two requests lead to, at counters the search reaches. *)
Definition requests_clash (compat : bool) (ped : bytes -> result bytes) (c f : bool) (d m x : bytes) (c' f' : bool) (d' m' x' : bytes) : Prop :=
  exists n n' a a', 0 <= n < 255 /\ 0 <= n' < 255 /\ expanded ped c f d m x n a /\ expanded ped c' f' d' m' x' n' a' /\ clash compat d a d' a'.
