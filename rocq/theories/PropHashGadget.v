(** C37-C40, C56: the hash-to-group gadget and the packing gadget.  [of1]: points of the curve as
    elements of the group [E1]; [ped]: the Pedersen hash; [pin]: the last projective coordinate of
    allocated points is 0 or 1. *)
From Verif Require Import Base Constants Group Field Curve BitsModel EncodingModel EncodingSpec EncodingProofs Blake2 HasherModel HasherSpec PointModel HashCurveModel HashCurveSpec CodecSpec
  Circuit CircuitFacts GadgetModel GadgetSpec HashGadgetModel HashGadgetSpec HashGadgetProofs HashGadgetNative.

(** ** C37: the gadget hashes what the native hasher hashes *)
Theorem C37_gadget_hash_input : forall (E1 : grp) (of1 : apoint fq -> E1) sqrt ped (compat pin : bool) counter message extra h crh_bits xof_bits,
  u8_var counter -> Forall u8_var extra ->
  holds (enforce_hash_to_group of1 sqrt ped compat pin counter message extra true) (h, crh_bits, xof_bits) ->
  exists inner digest,
    crh (composite_hasher (native_ped ped)) SIG_DOMAIN (map bits_number_le message) 0 = Ok inner /\ bits_are crh_bits inner /\
    xof (composite_hasher (native_ped ped)) SIG_DOMAIN ([bits_number_le counter] ++ map bits_number_le extra ++ inner) 64 = Ok digest /\
    bits_are xof_bits digest.
Proof.
  intros E1 of1 sqrt ped compat pin counter message extra h c x Hc He H. change bits_number_le with bits_le_val in *.
  apply enforce_hash_holds in H; [|exact Hc|exact He]. destruct H as (v & Ev & -> & -> & _).
  exists (le_bytes 48 (fqv v)), (xof_bytes SIG_DOMAIN (gadget_input counter extra v)). cbn [crh xof composite_hasher].
  split; [unfold native_ped; rewrite Ev; reflexivity|]. split; [apply bits_are_iff; reflexivity|].
  split; [apply xof_is_native; assumption|apply bits_are_iff; reflexivity].
Qed.
Theorem C37_parameter_block : forall domain i, length domain = 8%nat -> 0 <= i < 2 ->
  bp_bytes (blake2xs_params 512 i domain) = param_block (xof_params domain i 64).
Proof. intros domain i L H. apply (params_native domain i 512); try exact L; try lia; [exact H|reflexivity]. Qed.
Theorem C37_native_in_gadget : forall (E1 : grp) (of1 : apoint fq -> E1) sqrt ped (compat pin constrain : bool) counter message extra P,
  sqrt_spec qmul sqrt -> of1 None = gz -> negation_law of1 -> u8_var counter -> Forall u8_var extra ->
  g1_attempt_cip22 compat (composite_hasher (native_ped ped)) E1 of1 G1_COFACTOR sqrt SIG_DOMAIN
    (map bits_number_le message) (map bits_number_le extra) = Ok (P, bits_number_le counter) ->
  exists crh_bits xof_bits,
    prover (enforce_hash_to_group of1 sqrt ped compat pin counter message extra constrain) = Val ((P, crh_bits, xof_bits), true).
Proof. intros E1 of1 sqrt ped compat pin constrain counter message extra P. apply native_in_gadget. Qed.

(** ** C38 *)
Theorem C38_sound : forall (E1 : grp) (of1 : apoint fq -> E1) sqrt ped (compat : bool) counter message extra h crh_bits xof_bits,
  u8_var counter -> Forall u8_var extra ->
  holds (enforce_hash_to_group of1 sqrt ped compat true counter message extra true) (h, crh_bits, xof_bits) <->
  exists inner digest,
    crh (composite_hasher (native_ped ped)) SIG_DOMAIN (map bits_number_le message) 0 = Ok inner /\ bits_are crh_bits inner /\
    xof (composite_hasher (native_ped ped)) SIG_DOMAIN ([bits_number_le counter] ++ map bits_number_le extra ++ inner) 64 = Ok digest /\
    bits_are xof_bits digest /\
    ((exists Q, selected (g1_sign_bit compat) (number digest) Q /\ h = smul G1_COFACTOR (of1 (Some Q))) \/
     (number digest mod 2 ^ 377 = 0 /\ Z.testbit (number digest) (g1_sign_bit compat) = false /\ h = smul G1_COFACTOR (of1 None))).
Proof. intros E1 of1 sqrt ped compat. apply gadget_sound. Qed.
(** the selected point is unique, hence so is the output *)
Theorem C38_unique : forall s v Q Q', selected s v Q -> selected s v Q' -> Q = Q'.
Proof. exact selected_unique. Qed.
(** every counter the native loop could succeed with is accepted, not only the least *)
Theorem C38_any_counter : forall (E1 : grp) (of1 : apoint fq -> E1) sqrt ped (compat pin : bool) counter message extra inner digest P,
  of1 None = gz -> negation_law of1 -> u8_var counter -> Forall u8_var extra ->
  crh (composite_hasher (native_ped ped)) SIG_DOMAIN (map bits_number_le message) 0 = Ok inner ->
  xof (composite_hasher (native_ped ped)) SIG_DOMAIN ([bits_number_le counter] ++ map bits_number_le extra ++ inner) 64 = Ok digest ->
  gives (denotes_g1 (g1_sign_bit compat)) of1 G1_COFACTOR 48 digest P ->
  exists crh_bits xof_bits, holds (enforce_hash_to_group of1 sqrt ped compat pin counter message extra true) (P, crh_bits, xof_bits).
Proof.
  intros E1 of1 sqrt ped compat pin counter message extra inner digest P Z N Hc He Hi Hd G. change bits_number_le with bits_le_val in *. cbn [crh xof composite_hasher] in Hi, Hd.
  unfold native_ped in Hi. destruct (ped (map bits_le_val message)) as [x|] eqn:Ex; [|discriminate Hi]. apply ok_inj in Hi. subst inner.
  rewrite xof_is_native in Hd by assumption. apply ok_inj in Hd. subst digest. exact (any_counter of1 sqrt ped compat pin counter message extra x P Z N Hc He Ex G).
Qed.

(** ** C39: without hash constraints *)
Theorem C39_free_bits : forall (E1 : grp) (of1 : apoint fq -> E1) sqrt ped (compat : bool) counter message extra h crh_bits xof_bits,
  holds (enforce_hash_to_group of1 sqrt ped compat true counter message extra false) (h, crh_bits, xof_bits) <->
  exists inner, native_ped ped (map bits_number_le message) = Ok inner /\ bits_are crh_bits inner /\ length xof_bits = 512%nat /\
    ((exists Q, selected (g1_sign_bit compat) (bits_number_le xof_bits) Q /\ h = smul G1_COFACTOR (of1 (Some Q))) \/
     (bits_number_le xof_bits mod 2 ^ 377 = 0 /\ Z.testbit (bits_number_le xof_bits) (g1_sign_bit compat) = false /\ h = smul G1_COFACTOR (of1 None))).
Proof. intros E1 of1 sqrt ped compat. apply gadget_free. Qed.
Theorem C39_any_point : forall (E1 : grp) (of1 : apoint fq -> E1) sqrt ped (compat pin : bool) counter message extra x Q,
  ped (map bits_number_le message) = Some x -> g1_equation Q ->
  exists crh_bits xof_bits,
    holds (enforce_hash_to_group of1 sqrt ped compat pin counter message extra false) (smul G1_COFACTOR (of1 (Some Q)), crh_bits, xof_bits).
Proof. intros E1 of1 sqrt ped compat pin counter message extra x Q. apply free_xof_any_point. Qed.

(** ** C40 *)
Theorem C40_native : forall bits n l, (0 < n <= 376)%nat -> pack p n bits = Some l ->
  exists inputs, prover (multipack bits n) = Val (inputs, true) /\ map fqv inputs = l.
Proof. exact pack_native. Qed.
Theorem C40_low_bits : forall bits n inputs, (0 < n <= 377)%nat ->
  holds (multipack bits n) inputs <->
  Forall2 (fun chunk x => fqv x mod 2 ^ Z.of_nat (length chunk) = bits_number_be chunk) (chunks n bits) inputs.
Proof.
  intros bits n inputs N. rewrite (multipack_holds bits n inputs N).
  split; (induction 1 as [|c x cs xs H _ IH]; constructor; [rewrite H|exact IH]); [|symmetry]; rewrite bits_number_be_eq; reflexivity.
Qed.
Theorem C40_determined : forall bits bits' n inputs, (0 < n <= 377)%nat -> length bits = length bits' ->
  holds (multipack bits n) inputs -> holds (multipack bits' n) inputs -> bits = bits'.
Proof. exact pack_determines. Qed.
(** the rest of a public input is not determined by the bits *)
Theorem C40_high_bits_refuted : exists bits inputs inputs', inputs <> inputs' /\
  holds (multipack bits CAPACITY) inputs /\ holds (multipack bits CAPACITY) inputs'.
Proof. exact high_bits_free. Qed.

(** ** C56: variables allocated as projective points whose Z is not constrained *)
Theorem C56_hash_any_point : forall (E1 : grp) (of1 : apoint fq -> E1) sqrt (compat : bool) xof_bits Q,
  length xof_bits = 512%nat -> 0 < bits_number_le xof_bits mod 2 ^ 377 < p ->
  g1_equation Q -> fst Q <> q0 -> snd Q <> q0 ->
  exists y, (y = snd Q \/ y = qopp (snd Q)) /\
    holds (HashGadgetModel.hash_to_group of1 sqrt compat false xof_bits) (smul G1_COFACTOR (of1 (Some (fst Q, y)))).
Proof.
  intros E1 of1 sqrt compat xof_bits Q L R HE X Y. destruct (any_point of1 sqrt compat xof_bits Q L R HE X Y) as [H|H].
  - exists (snd Q). split; [auto|]. destruct Q. exact H.
  - exists (qopp (snd Q)). split; [auto|exact H].
Qed.

Print Assumptions C37_gadget_hash_input.
Print Assumptions C37_parameter_block.
Print Assumptions C37_native_in_gadget.
Print Assumptions C38_sound.
Print Assumptions C38_unique.
Print Assumptions C38_any_counter.
Print Assumptions C39_free_bits.
Print Assumptions C39_any_point.
Print Assumptions C40_native.
Print Assumptions C40_low_bits.
Print Assumptions C40_determined.
Print Assumptions C40_high_bits_refuted.
Print Assumptions C56_hash_any_point.
