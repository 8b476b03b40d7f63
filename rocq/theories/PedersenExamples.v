(** C61: cases that meet the premises, and test vectors for the stream the parameters are drawn from. *)
From Verif Require Import Base Constants Group Field Curve BlsModel EncodingModel EncodingSpec EncodingProofs EncodingExamples HasherModel PointModel HashCurveModel HashCurveSpec
  HashCurveProofs FfiModel FfiSpec Edwards PedersenModel PedersenSpec PedersenProofs PedersenUse PropPedersen.

(** RFC 8439 / ChaCha20 with the zero key: the keystream starts 76b8e0ad a0f13d90 405d6ae5 5386bd28. *)
Example chacha_zero_key : map (rng_u32 (repeat 0 32)) [0; 1; 2; 3] = [2917185654; 2419978656; 3848953152; 683509331].
Proof. vm_compute. reflexivity. Qed.
(** The seed: BLAKE2s-256 with personalisation UL_prngs of "ULTRALIGHT PRNG SEED" (computed with Python's hashlib). *)
Example seed_value : prng_seed = [70; 162; 26; 238; 227; 78; 104; 65; 158; 69; 167; 154; 233; 130; 3; 112;
  42; 194; 31; 113; 4; 132; 177; 113; 212; 193; 198; 247; 128; 250; 182; 75].
Proof. vm_compute. reflexivity. Qed.
(** The window size is the largest the scalar field admits. *)
Example window_size_maximal : num_chunks 200 2 = WINDOW_SIZE.
Proof. vm_compute. reflexivity. Qed.

(** A point of the curve: the one the key of 32 ones samples first. *)
Definition ex_key : bytes := repeat 1 32.
Definition ex_x : fq := fq_of 226370528796435687527135961565430359819696575794572609599883078815401944408022414457302836654092720275221708604958.
Definition ex_y : fq := fq_of 38651352164655733767527741093121830367622475271656166534225481026631735572083481035678569152589344998829573324117.
Lemma ex_on : ed_on (ex_x, ex_y) = true. Proof. vm_compute. reflexivity. Qed.
Definition ex_Q : ed_grp := exist _ (ex_x, ex_y) ex_on.
Lemma ex_words : limbs ex_key 0 mod 2 ^ 377 = 128324634577954719471921935809184068022549827546935918026592423677381407446007962125892113695635452039917011943170.
Proof. vm_compute. reflexivity. Qed.
Lemma ex_mont : fqv (qdiv (fq_of 128324634577954719471921935809184068022549827546935918026592423677381407446007962125892113695635452039917011943170) (fq_of (2 ^ 384))) = fqv ex_x.
Proof. vm_compute. reflexivity. Qed.
Lemma ex_field : field_rand ex_key 1 0 = Some (ex_x, 12).
Proof.
  cbn [field_rand]. rewrite ex_words. replace (_ <? p) with true by (symmetry; vm_compute; reflexivity).
  rewrite (fq_ext _ _ ex_mont). reflexivity.
Qed.
Lemma ex_sign : (2 ^ 31 <=? rng_u32 ex_key 12) = false. Proof. vm_compute. reflexivity. Qed.
Lemma ex_small : (fqv ex_y <=? fqv (qopp ex_y)) = true. Proof. vm_compute. reflexivity. Qed.
Lemma ex_from_x : ed_point_from_x fq_sqrt ex_x false = Some (ex_x, ex_y).
Proof. apply C61_point_from_x; [exact fq_sqrt_ok|]. exists ex_y. split; [reflexivity|]. split; [exact ex_on|]. apply Z.leb_le, ex_small. Qed.
Example ex_bases : create_bases ex_key fq_sqrt 1 1 0 = Some [edp (smul 8 ex_Q)].
Proof.
  cbn [create_bases point_rand]. rewrite ex_field, ex_sign, ex_from_x. rewrite <- mul_cofactor. reflexivity.
Qed.

(** Parameters: 560 windows, over that base, and over one with a base of order two. *)
Lemma windows_repeat (B : ed_grp) n : Forall2 window_of (repeat B n) (repeat (segment_generators WINDOW_SIZE (edp B)) n).
Proof. induction n as [|n IH]; cbn [repeat]; constructor; [apply segment_generators_window|exact IH]. Qed.
Example ex_parameters : Forall2 window_of (repeat ex_Q 560) (repeat (segment_generators WINDOW_SIZE (edp ex_Q)) 560) /\
  length (repeat ex_Q 560) = 560%nat /\ exists out, composite_crh (repeat (segment_generators WINDOW_SIZE (edp ex_Q)) 560) [1; 2; 3] = Ok out.
Proof.
  split; [apply windows_repeat|]. split; [apply repeat_length|].
  apply (C61_limit (repeat ex_Q 560)); [apply windows_repeat|apply repeat_length|]. cbn. lia.
Qed.
(** The scalars of a short message: 0x0201 in chunks of three bits is 1 0 0 1 0 0, so the digits are 2 1 1 2 1 1. *)
Example ex_scalars : firstn 2 (coefficients [1; 2]) = [2 + 16 * (1 + 16 * (1 + 16 * (2 + 16 * (1 + 16 * 1)))); 0].
Proof. reflexivity. Qed.
(** A collision: with bases of order two every digest is zero. *)
Lemma two_or_zero k : smul k ed_two = gz \/ smul k ed_two = ed_two.
Proof.
  rewrite (Z.div_mod k 2) by lia. rewrite smul_add, Z.mul_comm, smul_mul. replace (smul 2 ed_two) with (gz : ed_grp).
  2: { symmetry. rewrite <- ed_two_double. rewrite <- (smul_1 ed_two) at 2 3. rewrite <- smul_add. reflexivity. }
  rewrite smul_gz, ga_0_l. pose proof (Z.mod_pos_bound k 2 ltac:(lia)) as B.
  assert (C : k mod 2 = 0 \/ k mod 2 = 1) by lia. destruct C as [-> | ->]; [left; apply smul_0|right; apply smul_1].
Qed.
Lemma two_combination n : forall ks, combination ks (repeat ed_two n) = gz \/ combination ks (repeat ed_two n) = ed_two.
Proof.
  induction n as [|n IH]; intros [|k ks]; cbn [repeat combination]; try (left; reflexivity).
  destruct (two_or_zero k) as [-> | ->], (IH ks) as [-> | ->]; rewrite ?ga_0_l, ?ga_0_r; auto. left. exact ed_two_double.
Qed.
Example ex_collision : [1] <> [2] /\ composite_crh (repeat (segment_generators WINDOW_SIZE (edp ed_two)) 560) [1] = Ok (repeat 0 48) /\
  composite_crh (repeat (segment_generators WINDOW_SIZE (edp ed_two)) 560) [2] = Ok (repeat 0 48) /\ exists ds, relation ds (repeat ed_two 560).
Proof.
  assert (A : forall m, is_bytes m = true -> Z.of_nat (length m) <= 19530 ->
    composite_crh (repeat (segment_generators WINDOW_SIZE (edp ed_two)) 560) m = Ok (repeat 0 48)).
  { intros m Hm L. apply (C61_value (repeat ed_two 560)); [apply windows_repeat|apply repeat_length|exact Hm|].
    split; [exact L|]. split; [reflexivity|]. split; [reflexivity|].
    destruct (two_combination 560 (coefficients m)) as [-> | ->]; reflexivity. }
  assert (H1 := A [1] eq_refl ltac:(cbn; lia)). assert (H2 := A [2] eq_refl ltac:(cbn; lia)).
  split; [congruence|]. split; [exact H1|]. split; [exact H2|].
  apply (C61_collision (repeat ed_two 560) (repeat (segment_generators WINDOW_SIZE (edp ed_two)) 560) [1] [2] (repeat 0 48));
    [apply windows_repeat|apply repeat_length|reflexivity|reflexivity|congruence|exact H1|exact H2].
Qed.
(** Bases of odd order: the neutral element.  (The real bases have order [ED_ORDER]; checking that is too slow here.) *)
Example ex_odd : Z.odd 1 = true /\ Forall (fun B : ed_grp => smul 1 B = gz) (repeat (gz : ed_grp) 560) /\
  Forall2 window_of (repeat (gz : ed_grp) 560) (repeat (segment_generators WINDOW_SIZE (edp (gz : ed_grp))) 560).
Proof.
  split; [reflexivity|]. split; [|apply windows_repeat]. apply Forall_forall. intros B HB. apply repeat_spec in HB. subst B. apply smul_1.
Qed.
(** A block within and a block beyond the limit. *)
Lemma generators_wf n : wf_block (ex_block 5 (repeat g2_generator n)).
Proof.
  split; [repeat split; cbn [ex_block eb_index eb_round eb_max_non_signers]; lia|].
  split; [split; [reflexivity|cbn; lia]|]. split; [exact I|]. cbn [ex_block eb_keys].
  induction n as [|n IH]; [reflexivity|]. cbn [repeat forallb]. rewrite generator_on, IH. reflexivity.
Qed.
Lemma generators_count n : length (padded_keys (ex_block 5 (repeat g2_generator n))) = Nat.max 2 n.
Proof. unfold padded_keys. cbn [ex_block eb_keys eb_max_validators]. rewrite app_length, !repeat_length. change (Z.to_nat 2) with 2%nat. lia. Qed.
Example ex_blocks : exists b b', wf_block b /\ Z.of_nat (length (padded_keys b)) = 206 /\ wf_block b' /\ Z.of_nat (length (padded_keys b')) = 207.
Proof.
  exists (ex_block 5 (repeat g2_generator 206)), (ex_block 5 (repeat g2_generator 207)).
  split; [exact (generators_wf 206)|]. split; [rewrite (generators_count 206); reflexivity|].
  split; [exact (generators_wf 207)|]. rewrite (generators_count 207). reflexivity.
Qed.
