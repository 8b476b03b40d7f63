(** C69 on concrete points. *)
From Coq Require Import Znumtheory.
From Verif Require Import Base Constants Group Field Curve BlsModel PointModel EncodingModel EncodingProofs HasherModel HashCurveModel HashCurveSpec HashCurveProofs PropHashCurve HashCurveExamples CodecModel CodecSpec
  CurveGroups CurveCount TwistOrder TwistCount OrderSpec TwistSpec TwistProofs PropTwist.

(** The generator is in G2; some point of the twist is not. *)
Example generator_in2 : in_g2 g2_generator. Proof. exists 1. split; [split; [lia|reflexivity]|]. reflexivity. Qed.
Lemma pigeon {A} (dec : forall x y : A, {x = y} + {x <> y}) (l : list A) : forall l', NoDup l -> (length l' < length l)%nat -> exists x, In x l /\ ~ In x l'.
Proof.
  induction l as [|x l IH]; intros l' N H; cbn [length] in H; [lia|]. inversion N; subst. destruct (in_dec dec x l') as [I|I]; [|exists x; split; [left; reflexivity|exact I]].
  apply in_split in I as (l1 & l2 & ->). destruct (IH (l1 ++ l2)) as (y & Y & NY); [assumption|rewrite app_length in *; cbn [length] in H; lia|].
  exists y. split; [right; exact Y|]. intros I. apply NY. apply in_or_app. apply in_app_or in I as [I|[I|I]]; [left; exact I|subst; contradiction|right; exact I].
Qed.
Lemma g2_dec (P Q : g2_point) : {P = Q} + {P <> Q}.
Proof.
  assert (D : forall x y : fq2, {x = y} + {x <> y}) by (intros x y; destruct (q2eqb x y) eqn:E; [left; apply q2eqb_spec, E|right; intros H; apply q2eqb_spec in H; congruence]).
  destruct P as [[x y]|], Q as [[x' y']|]; try (right; intros K; discriminate K); [|left; reflexivity].
  destruct (D x x') as [->|N]; [destruct (D y y') as [->|N]; [left; reflexivity|]|]; right; intros K; apply N; congruence.
Qed.
Lemma outside_n n : Z.of_nat n = r -> exists P, on_twist P = true /\ ~ in_g2 P.
Proof.
  intros Hn. destruct C69_g2_points as (l & N & A & L). destruct (pigeon g2_dec l (map (fun k => g2_times (Z.of_nat k) g2_generator) (seq 0 n)) N) as (P & I & O).
  - rewrite map_length, seq_length. apply Nat2Z.inj_lt. rewrite L, Hn. vm_compute. reflexivity.
  - exists P. split; [apply A, I|]. intros (k & Hk & E). apply O. apply in_map_iff. exists (Z.to_nat k). rewrite Z2Nat.id by apply Hk. split; [symmetry; exact E|].
    apply in_seq. rewrite <- Hn in Hk. clear - Hk. lia.
Qed.
Example outside : exists P, on_twist P = true /\ ~ in_g2 P. Proof. exact (outside_n _ (Z2Nat.id r r_pos')). Qed.
(** A hasher that always gives the abscissa of the generator: the hash to G2 is a multiple of it. *)
Definition gen2_hasher : HasherModel.hasher := mk_hasher (crh clip_hasher) (fun _ _ _ => Ok gen_x_bytes).
Lemma gen2_hasher_bytes : bytes_hasher gen2_hasher.
Proof. intros d m n out. split; cbn [crh xof gen2_hasher]; intros H; [exact (proj1 (clip_bytes d m n out) H)|]. assert (E : gen_x_bytes = out) by congruence. rewrite <- E. vm_compute. reflexivity. Qed.
Definition hashed2 : g2_curve := smul G2_COFACTOR (gn g2_gen).
Lemma gn_zero2 {G : grp} (P : G) : gn P = gz -> P = gz. Proof. intros H. rewrite <- (gn_gn P), H. apply gn_0. Qed.
Lemma hashed2_nz : hashed2 <> gz.
Proof.
  unfold hashed2. rewrite smul_gn. intros H. apply gn_zero2 in H. apply (smul_eq_0_divide g2_gen _ gen2_order gen2_not_0) in H.
  apply Z.mod_divide in H; [|discriminate]. vm_compute in H. discriminate H.
Qed.
Example hashes_to_g2 : g2_attempt true gen2_hasher g2_curve g2_of G2_COFACTOR fq2_sqrt SIG_DOMAIN [1; 2; 3] [4] = Ok (hashed2, 0).
Proof.
  apply C25_g2_least_counter; [exact gen2_hasher_bytes|exact fq2_sqrt_ok|]. split; [lia|]. split.
  - exists gen_x_bytes. split; [reflexivity|]. split; [apply Nat.leb_le; vm_compute; reflexivity|]. exists (g2_neg g2_generator).
    split; [|split; [unfold hashed2; rewrite g2_of_neg; reflexivity|exact hashed2_nz]].
    unfold g2_neg, g2_generator, ec_neg, denotes_g2. cbn zeta. split; [vm_compute; reflexivity|]. split; [vm_compute; reflexivity|]. split; [intros [K _]; vm_compute in K; discriminate K|].
    split; [vm_compute; reflexivity|]. split; [vm_compute; reflexivity|]. split; [apply q2eqb_spec; vm_compute; reflexivity|].
    match goal with |- context [Z.testbit ?v ?i] => assert (B : Z.testbit v i = false) by (vm_compute; reflexivity); rewrite B end. apply PointProofs.le2_ltb. vm_compute. reflexivity.
  - intros c' Hc. lia.
Qed.
Example hashed2_in : in_g2 (g2_to hashed2) /\ g2_to hashed2 <> None.
Proof. exact (C69_hash_to_g2 true gen2_hasher fq2_sqrt SIG_DOMAIN [1; 2; 3] [4] hashed2 0 gen2_hasher_bytes fq2_sqrt_ok (or_introl hashes_to_g2)). Qed.
(** The generator read from its bytes. *)
Example generator_read2 : public_key_deserialize fq2_sqrt g2_test (public_key_serialize g2_generator) = Ok g2_generator.
Proof.
  apply C69_public_key_accepts; [exact fq2_sqrt_ok|vm_compute; reflexivity|]. split; [apply Nat.leb_le; vm_compute; reflexivity|]. split; [|exact generator_in2].
  unfold g2_generator, wire_g2. split; [apply q2eqb_spec; vm_compute; reflexivity|]. right. split; [vm_compute; reflexivity|]. apply PointProofs.le2_ltb. vm_compute. reflexivity.
Qed.
