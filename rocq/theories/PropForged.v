(** C82: whoever makes an accepted epoch proof between blocks with consecutive indices could compute the signature of each validator whose key is
    counted.  As in C77 the proof system enters through [extractable]; [answers], [extracted] and [proved] are C81's. *)
From Coq Require Import Permutation.
From Verif Require Import Base Constants Group Field Curve BitsModel EncodingModel EncodingSpec HasherModel PointModel HashCurveModel HashCurveSpec CodecSpec
  Circuit GadgetSpec HashGadgetModel HashGadgetSpec HashGadgetNative EpochCircuitModel EpochSpec EpochCircuitSpec ProverModel ProverSpec FfiModel FfiSpec
  HelperModel SetupModel ShapeSpec LightSpec CurveGroups CurvesSpec OrderSpec TwistSpec SecretSpec KnowledgeSpec KnowledgeLight
  RealSpec RealModel RealBatchSpec ReductionSpec ForgedProofs.

Section Forged.
  Context (GT : grp) (e : g1_curve -> g2_curve -> GT) (sqrt : fq -> option fq) (ped : bytes -> option fq) (compat debug : bool).
  Context (P V key_e key_h R : Type) (vk_of : key_h -> V) (default_proof : P) (helper_verify : P * V -> list (list bool) -> bool).
  Context (sqrt2 : fq2 -> option fq2) (vkey proof : Type) (vkd : bytes -> result vkey) (pd : bytes -> result proof) (vp : vkey -> proof -> list Z -> result bool).
  Context (vk_of_e : key_e -> vkey) (extract : key_e -> proof -> list Z -> list cell).
  Notation circuit pin := (generate_constraints e g1_gen g2_gen g1_of g2_of g1_to g2_to sqrt ped compat pin debug helper_verify).
  Notation verify_c := (ffi_verify sqrt2 g2_test vkd pd vp blake2_out).
  Notation hashes := (hashes_to g1_of (native_ped ped) compat).
  (** Where the proofs of possession were verified. *)
  Context (GT' : grp) (e' : g1_point -> g2_point -> GT') (L' : bilinear e') (compat' : bool) (ped' : bytes -> result bytes) (sqrt' : fq -> option fq) (sqrt2' : fq2 -> option fq2).
  Notation possessed := (proved (hashed compat' ped' sqrt') (c_verify_pop GT' e' L' compat' sqrt' sqrt2')).

  (** The C function [verify] returned true.  Unless the assignment contains a collision of the digest, it contains headers that show the blocks and a
      point T.  If the last block follows the first, some of the validators of the first block are counted as signers, at least one of every set with more
      members than the maximum of non-signers that the assignment has.  If the header that shows the last block hashes to kappa times Y, and for all
      counted keys but A proofs of possession were accepted on messages hashing to known multiples of Y, then a times Y is computed from T and these proofs.
      (Keys whose sign bit is undetermined are left out.) *)
  Theorem C82_forged_proof : (forall m out, ped' m = Ok out -> is_bytes out = true) -> sqrt_spec qmul sqrt' -> sqrt_spec q2mul sqrt2' ->
    exists c : Z, forall n k m rng hs vs q (rng' : R) vk pf first last,
    curve_pairing e -> sqrt_spec q2mul sqrt2 -> Z.of_nat n < 2 ^ 32 -> (0 < k)%nat -> Z.of_nat k < 2 ^ 16 ->
    (forall w0 r0 key r1, vs w0 r0 = Val (key, r1) -> extractable (fun pr inputs => vp (vk_of_e key) pr inputs = Ok true) (circuit true w0) (extract key)) ->
    trusted_setup vk_of default_proof hs vs n k m rng false = Val (q, rng') -> vkd vk = Ok (vk_of_e (p_epochs q)) ->
    c_block first -> c_block last -> verify_c vk pf first last = Returns true None ->
    exists f l pr inputs (h0 hl : header g2_curve) s, epoch_block_try_from sqrt2 g2_test first = Ok f /\ epoch_block_try_from sqrt2 g2_test last = Ok l /\ pd pf = Ok pr /\
      public_inputs g2_coords g2_sum g2_generator blake2_out f l = Ok (Some inputs) /\
      contains_header g2_of (extract (p_epochs q) pr inputs) h0 /\ contains_header g2_of (extract (p_epochs q) pr inputs) hl /\ contains_g1 g1_of (extract (p_epochs q) pr inputs) s /\
      (collides (first_bits h0) (enc_first f) \/ (exists agg, sums_to g2_to hl agg /\ collides (closing_bits hl ++ agg) (enc_last l)) \/
       (shows_first g2_of h0 f /\ shows_last g2_of hl l /\
        (eb_index l = (eb_index f + 1) mod 2 ^ 16 -> Forall (fun Q => ~ undetermined (snd (g2_coords (g2_neg Q)))) (padded_keys f) ->
         exists H bitmap signing, hashes hl H /\ signers (padded_keys f) bitmap signing /\ signing <> [] /\ ~ In g2_generator signing /\
           (forall honest, NoDup honest -> incl honest (padded_keys f) -> fqv (h_max h0) < Z.of_nat (length honest) -> exists A, In A honest /\ In A signing) /\
           forall Y kappa A others, in_g1 Y -> 0 < kappa < r -> g1_to H = g1_times kappa Y -> Permutation signing (A :: map o_point others) -> Forall (possessed Y) others ->
             answers A Y (extracted kappa (g1_to (smul c (ga s (gn (smul (Z.of_nat k - 1) g1_gen))))) others)))).
  Proof.
    intros H1 H2 H3. destruct to_g1 as (c & Hc & Kc). exists c. intros n.
    apply (forged GT e sqrt ped compat debug P V key_e key_h R vk_of default_proof helper_verify sqrt2 vkey proof vkd pd vp vk_of_e extract GT' e' L' compat' ped' sqrt' sqrt2' H1 H2 H3 c Hc Kc n).
  Qed.
End Forged.
Print Assumptions C82_forged_proof.
