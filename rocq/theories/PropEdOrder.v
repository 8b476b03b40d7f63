(** C85: the x coordinate that the Pedersen hash returns determines the point, because the bases are multiples of the cofactor.
    [combination (coefficients m) Bs] is the point that the message m is mapped to (C61_value); the digest is its x coordinate alone. *)
From Verif Require Import Base Constants Group Field Curve HashCurveSpec EncodingModel Edwards PedersenModel PedersenSpec PedersenUse EdOrderProofs.

(** No point of the curve has order sixteen, and some point has order eight: 8 is exactly the power of two in the group. *)
Theorem C85_no_order_sixteen : forall P : ed_grp, smul 16 P = gz -> smul 8 P = gz.
Proof. exact no_sixteen. Qed.
Theorem C85_order_eight : exists P : ed_grp, smul 8 P = gz /\ smul 4 P <> gz.
Proof. exact eight_reached. Qed.
(** So the cofactor 8 that the parameters are multiplied by leaves points of odd order only. *)
Theorem C85_cofactor : exists n, Z.odd n = true /\ 0 < n /\ forall P : ed_grp, smul n (smul 8 P) = gz.
Proof. exact cofactor_odd. Qed.
(** Two points with an x coordinate in common that are sums of such bases are equal. *)
Theorem C85_same_x : forall P Q P' Q' : ed_grp, P = smul 8 P' -> Q = smul 8 Q' -> fst (edp P) = fst (edp Q) -> P = Q.
Proof. exact cleared_same_x. Qed.
(** Without the cofactor this fails for every point: (0, -1) minus the point is another point with its x coordinate, and is different
    from a point of odd order. *)
Theorem C85_uncleared : forall P : ed_grp, fst (edp (ga ed_two (gn P))) = fst (edp P) /\
  (forall n, Z.odd n = true -> smul n P = gz -> ga ed_two (gn P) <> P).
Proof. exact uncleared_differs. Qed.

(** ** The digest *)
(** Messages of at most 19530 bytes have the same digest exactly if they are mapped to the same point. *)
Theorem C85_digest : forall (Bs : list ed_grp) gens m m', Forall (fun B => exists Q, B = smul 8 Q) Bs -> Forall2 window_of Bs gens -> length Bs = 560%nat ->
  is_bytes m = true -> is_bytes m' = true -> Z.of_nat (length m) <= 19530 -> Z.of_nat (length m') <= 19530 ->
  composite_crh gens m = composite_crh gens m' <-> combination (coefficients m) Bs = combination (coefficients m') Bs.
Proof. exact cleared_digest. Qed.
(** A collision gives one relation, the difference of the scalars of the two messages (C61 left a second possibility, twice the sum). *)
Theorem C85_collision : forall (Bs : list ed_grp) gens m m' out, Forall (fun B => exists Q, B = smul 8 Q) Bs -> Forall2 window_of Bs gens -> length Bs = 560%nat ->
  is_bytes m = true -> is_bytes m' = true -> m <> m' -> composite_crh gens m = Ok out -> composite_crh gens m' = Ok out ->
  relation (map (fun i => coefficient m i - coefficient m' i) (seq 0 560)) Bs.
Proof. exact cleared_difference. Qed.
(** The bases of the parameters that [setup] returns are such bases, whatever the seed. *)
Theorem C85_setup : forall key sqrt fuel gens (Bs : list ed_grp), sqrt_spec qmul sqrt -> crh_setup key sqrt fuel = Some gens -> Forall2 window_of Bs gens ->
  length Bs = 560%nat /\ Forall (fun B => exists Q, B = smul 8 Q) Bs.
Proof. exact setup_bases. Qed.

Print Assumptions C85_no_order_sixteen.
Print Assumptions C85_order_eight.
Print Assumptions C85_cofactor.
Print Assumptions C85_same_x.
Print Assumptions C85_uncleared.
Print Assumptions C85_digest.
Print Assumptions C85_collision.
Print Assumptions C85_setup.
