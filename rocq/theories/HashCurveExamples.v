(** Concrete cases meeting the hypotheses of C25-C29. *)
From Verif Require Import Base Constants Group Instances Field Curve BlsModel EncodingModel HasherModel PointModel HashCurveModel HashCurveSpec
  HashCurveProofs PropHashCurve HashLength.

(** A group standing for the points of the curve: Z/r, sending (x, y) to y. *)
Definition toy_point {K} (value : K -> Z) (P : apoint K) : zr_grp :=
  match P with None => gz | Some (_, y) => zr_mk (value y) end.
Example toy_curve_group {K} (value : K -> Z) c : curve_group zr_grp (toy_point value) c.
Proof.
  split; [reflexivity|]. intros P. apply zr_ext. rewrite zr_smul, <- Z.mul_assoc, Z.mul_comm, Z_mod_mult. reflexivity.
Qed.
(** A hasher whose first candidate is not below the modulus and whose other candidates are zero. *)
Definition toy_hasher : HasherModel.hasher :=
  mk_hasher (fun _ m _ => Ok m)
            (fun _ m n => Ok (repeat (if hd 0 m =? 0 then 255 else 0) (Z.to_nat n))).
Definition clip_hasher : HasherModel.hasher :=
  mk_hasher (fun d m n => Ok (map (fun b => b mod 256) m)) (xof toy_hasher).
Example clip_bytes : bytes_hasher clip_hasher.
Proof.
  intros d m n out. split; cbn [crh xof clip_hasher toy_hasher]; injection 1 as <-.
  - induction m as [|b m IH]; [reflexivity|]. cbn [map is_bytes forallb]. apply andb_true_iff. split; [|exact IH].
    unfold is_byte. pose proof (Z.mod_pos_bound b 256 ltac:(lia)). lia.
  - induction (Z.to_nat n) as [|k IH]; [reflexivity|]. cbn [repeat is_bytes forallb]. apply andb_true_iff. split; [destruct (hd 0 m =? 0); reflexivity|exact IH].
Qed.

Definition the_point : zr_grp := smul (G := zr_grp) G1_COFACTOR (zr_mk 1).
Lemma the_point_val : zr_val the_point = G1_COFACTOR * 1 mod r.
Proof. unfold the_point. rewrite zr_smul. f_equal. Qed.
Lemma the_point_nz : the_point <> gz.
Proof.
  intros H. apply (f_equal zr_val) in H. rewrite the_point_val in H.
  assert (N : (G1_COFACTOR * 1 mod r =? 0) = false) by (vm_compute; reflexivity).
  apply Z.eqb_neq in N. apply N. rewrite H. reflexivity.
Qed.
Lemma zero_denotes : denotes_g1 377 0 (Some (q0, q1)).
Proof.
  split; [reflexivity|]. split; [intros [_ H]; discriminate|]. split; [reflexivity|]. split; [apply fq_ext; vm_compute; reflexivity|].
  change (Z.testbit 0 377) with false. cbv iota. unfold le1. vm_compute. discriminate.
Qed.
(** The first counter fails, the second succeeds. *)
Example g1_second_counter : g1_attempt true clip_hasher zr_grp (toy_point fqv) G1_COFACTOR fq_sqrt SIG_DOMAIN [1; 2; 3] [4] = Ok (the_point, 1).
Proof.
  apply C25_g1_least_counter; [exact clip_bytes|exact fq_sqrt_ok|]. split; [lia|]. split.
  - exists (repeat 0 64). split; [reflexivity|]. split; [cbn; lia|]. exists (Some (q0, q1)).
    split; [exact zero_denotes|]. split; [|exact the_point_nz].
    unfold the_point. f_equal.
  - intros c' Hc. assert (c' = 0) as -> by lia. exists (repeat 255 64). split; [reflexivity|]. split; [cbn; lia|].
    intros P (Q & (H & _) & _). revert H. vm_compute. discriminate.
Qed.
Example g1_second_counter_subgroup : the_point <> gz /\ smul r the_point = gz.
Proof.
  destruct (C26_g1_subgroup true clip_hasher zr_grp (toy_point fqv) G1_COFACTOR fq_sqrt SIG_DOMAIN [1; 2; 3] [4] the_point 1
    clip_bytes fq_sqrt_ok (toy_curve_group fqv G1_COFACTOR) (or_introl g1_second_counter)) as (H1 & H2 & _). auto.
Qed.
(** A hasher that never gives a usable candidate. *)
Definition bad_hasher : HasherModel.hasher := mk_hasher (fun _ m _ => Ok []) (fun _ _ n => Ok (repeat 255 (Z.to_nat n))).
Example never : g1_attempt false bad_hasher zr_grp (toy_point fqv) G1_COFACTOR fq_sqrt SIG_DOMAIN [] [] = Err HashToCurveError.
Proof.
  apply C25_g1_failure.
  - intros d m n out. split; cbn [crh xof bad_hasher]; injection 1 as <-; [reflexivity|].
    induction (Z.to_nat n) as [|k IH]; [reflexivity|]. cbn [repeat is_bytes forallb]. exact IH.
  - exact fq_sqrt_ok.
  - right. split; [reflexivity|]. intros c Hc. exists (repeat 255 64). split; [reflexivity|]. split; [cbn; lia|].
    intros P (Q & (H & _) & _). revert H. vm_compute. discriminate.
Qed.
(** A hasher error is returned. *)
Example error_returned :
  g1_attempt_cip22 true direct_hasher zr_grp (toy_point fqv) G1_COFACTOR fq_sqrt [1; 2; 3; 4; 5; 6; 7; 8; 9] [] [] = Panic /\
  g1_attempt_cip22 true (composite_hasher (fun _ => Ok (repeat 0 48))) zr_grp (toy_point fqv) G1_COFACTOR fq_sqrt [1; 2; 3; 4; 5; 6; 7; 8; 9] [] [] =
  Err (DomainTooLarge 9).
Proof. split; reflexivity. Qed.

(** C28: x = 0 with either sign, and infinity. *)
Example decode_zero : g1_from_random_bytes fq_sqrt (repeat 0 47 ++ [128]) = Some (Some (q0, qopp q1)).
Proof.
  apply C28_g1_decode; [exact fq_sqrt_ok|reflexivity|reflexivity|].
  split; [reflexivity|]. split; [intros [_ H]; vm_compute in H; discriminate|]. split; [vm_compute; reflexivity|].
  split; [apply fq_ext; vm_compute; reflexivity|]. vm_compute. discriminate.
Qed.
Example decode_zero_flipped : g1_from_random_bytes fq_sqrt (repeat 0 48) = Some (Some (q0, q1)).
Proof.
  replace (Some (Some (q0, q1))) with (Some (g1_neg (Some (q0, qopp q1)))).
  - apply (C28_g1_sign_flip fq_sqrt (repeat 0 47 ++ [128])); try reflexivity; try exact fq_sqrt_ok; try exact decode_zero.
  - cbn [g1_neg ec_neg]. do 3 f_equal. apply fq_ext. vm_compute. reflexivity.
Qed.
Example decode_infinity : g1_from_random_bytes fq_sqrt (repeat 0 47 ++ [64]) = Some None.
Proof. apply C28_g1_decode; [exact fq_sqrt_ok|reflexivity|reflexivity|]. vm_compute. auto. Qed.
Example decode_g2_infinity : g2_from_random_bytes fq2_sqrt (repeat 0 95 ++ [192]) = Some None.
Proof. apply C28_g2_decode; [exact fq2_sqrt_ok|reflexivity|reflexivity|]. vm_compute. auto. Qed.
(** the bytes of the generator of G2 *)
Definition gen_x_bytes : bytes :=
  match g2_generator with Some (x, _) => le_bytes 48 (fqv (fst x)) ++ le_bytes 48 (fqv (snd x)) | None => [] end.
Example decode_g2_generator : exists P, g2_from_random_bytes fq2_sqrt gen_x_bytes = Some P /\
  (P = g2_generator \/ P = g2_neg g2_generator).
Proof.
  destruct g2_generator as [[X Y]|] eqn:G; [|discriminate].
  exists (if q2_ltb Y (q2opp Y) then g2_generator else g2_neg g2_generator).
  rewrite <- G. split; [|destruct (q2_ltb _ _); auto]. apply C28_g2_decode; [exact fq2_sqrt_ok|reflexivity|vm_compute; reflexivity|].
  injection G as <- <-. unfold denotes_g2. cbv zeta.
  match goal with |- context [if ?b then g2_generator else _] => assert (E : b = false) by (vm_compute; reflexivity); rewrite E end.
  unfold g2_neg, ec_neg, g2_generator.
  split; [vm_compute; reflexivity|]. split; [vm_compute; reflexivity|]. split; [intros (H & _); vm_compute in H; discriminate|].
  split; [vm_compute; reflexivity|]. split; [vm_compute; reflexivity|]. split.
  - apply q2eqb_spec. vm_compute. reflexivity.
  - match goal with |- context [Z.testbit ?v ?i] => assert (B : Z.testbit v i = false) by (vm_compute; reflexivity); rewrite B end.
    apply PointProofs.le2_ltb. vm_compute. reflexivity.
Qed.

(** C29 at the two sizes in use *)
Example lengths_used : hash_length_f64 48 = 64 /\ hash_length_f64 96 = 96.
Proof. split; rewrite C29_model_length by lia; reflexivity. Qed.
(** The cofactors times r are the group orders p - x and the order of the sextic twist used for G2. *)
Example cofactor_g1 : G1_COFACTOR * r = p - bls_x. Proof. reflexivity. Qed.
