(** Model of crates/bls-crypto/src/hash_to_curve/try_and_increment.rs and try_and_increment_cip22.rs. *)
From Verif Require Import Base Constants Group Field Curve BlsModel EncodingModel HasherModel PointModel.

(** mod.rs lines 70-74, with exact arithmetic; HashLength.v has the f64 version and proves that the
    two agree below 2^53. *)
Definition hash_length (n : Z) : Z := (n * 8 + 255) / 256 * 256 / 8.

(** try_and_increment.rs line 27 and try_and_increment_cip22.rs line 27 *)
Definition NUM_TRIES : nat := 255.

Section TryAndIncrement.
  (** The points of the curve as a group ([GroupProjective<P>]) with its cofactor. *)
  Context {K : Type} (E : grp) (of_point : apoint K -> E) (cofactor : Z).
  Context (num_bytes : nat) (decode : bytes -> option (apoint K)).
  (** cargo feature "compat" (on by default) *)
  Context (compat : bool).
  Context (h : HasherModel.hasher).

  (** try_and_increment.rs lines 109-122 / try_and_increment_cip22.rs lines 104-117: bit 1 of the last
      byte decides bit 7. *)
  Definition compat_last (b : byte) : byte :=
    if negb (Z.land b 2 =? 0) then Z.lor b (ysf_u8_bitmask (PositiveY false))
    else Z.land b (255 - ysf_u8_bitmask (PositiveY false)).
  Definition compat_fix (l : bytes) : bytes :=
    firstn (num_bytes - 1) l ++ map compat_last (skipn (num_bytes - 1) l).

  (** lines 109-137 / 104-131: one candidate.  Slicing a too short digest panics. *)
  Definition candidate (candidate_hash : bytes) : result (option E) :=
    if (length candidate_hash <? num_bytes)%nat then Panic
    else
      let l := firstn num_bytes candidate_hash in
      let l := if compat then compat_fix l else l in
      match decode l with
      | None => Ok None
      | Some P =>
        let scaled := smul cofactor (of_point P) in
        if geqb scaled gz then Ok None else Ok (Some scaled)
      end.

  (** the loop: [try_c] is the body for counter c *)
  Fixpoint tries (try_c : Z -> result (option E)) (cs : list Z) : result (E * Z) :=
    match cs with
    | [] => Err HashToCurveError
    | c :: cs' =>
      rbind (try_c c) (fun o => match o with Some P => Ok (P, c) | None => tries try_c cs' end)
    end.
  Definition counters : list Z := map Z.of_nat (seq 0 NUM_TRIES).
  Definition hash_bytes : Z := hash_length (Z.of_nat num_bytes).

  (** try_and_increment.rs lines 87-140 *)
  Definition try_plain (domain message extra : bytes) (c : Z) : result (option E) :=
    rbind (hash h domain ([c] ++ extra ++ message) hash_bytes) candidate.
  Definition hash_with_attempt (domain message extra : bytes) : result (E * Z) :=
    tries (try_plain domain message extra) counters.

  (** try_and_increment_cip22.rs lines 81-134 *)
  Definition try_cip22 (domain inner extra : bytes) (c : Z) : result (option E) :=
    rbind (xof h domain ([c] ++ extra ++ inner) hash_bytes) candidate.
  Definition hash_with_attempt_cip22 (domain message extra : bytes) : result (E * Z) :=
    rbind (crh h domain message hash_bytes) (fun inner => tries (try_cip22 domain inner extra) counters).

  (** [HashToCurve::hash], lines 61-76 of both files *)
  Definition hash_to_curve (domain message extra : bytes) : result E :=
    rbind (hash_with_attempt domain message extra) (fun res => Ok (fst res)).
  Definition hash_to_curve_cip22 (domain message extra : bytes) : result E :=
    rbind (hash_with_attempt_cip22 domain message extra) (fun res => Ok (fst res)).
End TryAndIncrement.

(** The instances used by the rest of the code ([COMPOSITE_HASH_TO_G1], [DIRECT_HASH_TO_G1],
    [COMPOSITE_HASH_TO_G1_CIP22]: try_and_increment.rs lines 30-40, try_and_increment_cip22.rs lines
    30-34) and the G2 ones of the tests. *)
Section Instances.
  Context (compat : bool) (h : HasherModel.hasher).
  Section G1.
    Context (E : grp) (of_point : g1_point -> E) (cofactor : Z) (sqrt : fq -> option fq).
    Definition g1_attempt := hash_with_attempt E of_point cofactor G1_BYTES (g1_from_random_bytes sqrt) compat h.
    Definition g1_attempt_cip22 := hash_with_attempt_cip22 E of_point cofactor G1_BYTES (g1_from_random_bytes sqrt) compat h.
    Definition g1_hash := hash_to_curve E of_point cofactor G1_BYTES (g1_from_random_bytes sqrt) compat h.
    Definition g1_hash_cip22 := hash_to_curve_cip22 E of_point cofactor G1_BYTES (g1_from_random_bytes sqrt) compat h.
  End G1.
  Section G2.
    Context (E : grp) (of_point : g2_point -> E) (cofactor : Z) (sqrt : fq2 -> option fq2).
    Definition g2_attempt := hash_with_attempt E of_point cofactor G2_BYTES (g2_from_random_bytes sqrt) compat h.
    Definition g2_attempt_cip22 := hash_with_attempt_cip22 E of_point cofactor G2_BYTES (g2_from_random_bytes sqrt) compat h.
  End G2.
End Instances.
(** ark-bls12-377: the cofactors of the two curves *)
Definition G1_COFACTOR : Z := 0x170b5d44300000000000000000000000.
Definition G2_COFACTOR : Z :=
  0x26ba558ae9562addd88d99a6f6a829fbb36b00e1dcc40c8c505634fae2e189d693e8c36676bd09a0f3622fba094800452217cc900000000000000000000001.
