(** What becomes of the witness generation for a chain of blocks, honest or not (C65), in terms of the native
    encodings and hashes. *)
From Verif Require Import Base Constants Group Field Curve BitsModel EncodingModel EncodingSpec HasherModel PointModel HashCurveModel HashCurveSpec
  Circuit GadgetSpec HashGadgetModel EpochSpec ProverModel ProverSpec.

(** A failure, whatever the type of the output. *)
Definition failure {A} (r : synth False) : synth A := smap (fun f : False => match f with end) r.

Section Outcome.
  Context {E1 E2 GT : grp} (e : E1 -> E2 -> GT) (gen1 : E1) (gen2 : E2).
  Context (of1 : apoint fq -> E1) (of2 : apoint fq2 -> E2) (to2 : E2 -> apoint fq2).
  Context (sqrt : fq -> option fq) (ped : bytes -> option fq) (compat debug : bool).
  (** A block and the bitmap that says who signed it. *)
  Definition step : Type := (epoch_block E2 * list bool)%type.
  (** The native hash of a block and its counter. *)
  Definition hash_block (b : epoch_block E2) : result (E1 * Z) :=
    rbind (encode_inner_to_bytes_cip22 (coords_of to2) gen2 b) (fun '(message, extra) =>
      g1_attempt_cip22 compat (composite_hasher (native_ped ped)) E1 of1 G1_COFACTOR sqrt SIG_DOMAIN message extra).

  (** The steps, among [n] validators, that end the witness generation, and how. *)
  Inductive stops (n : nat) : step -> synth False -> Prop :=
  | stops_keys b bitmap : length (eb_keys b) <> n -> stops n (b, bitmap) Panics
  | stops_hash b bitmap er : length (eb_keys b) = n -> hash_block b = Err er -> stops n (b, bitmap) (Fails Unsatisfiable)
  | stops_long b bitmap : length (eb_keys b) = n -> hash_block b = Panic -> stops n (b, bitmap) Panics
  | stops_empty b H : length (eb_keys b) = n -> hash_block b = Ok H -> stops n (b, []) (Fails MissingCS)
  | stops_length b bitmap H : length (eb_keys b) = n -> hash_block b = Ok H -> bitmap <> [] -> length bitmap <> n -> stops n (b, bitmap) Panics
  | stops_count b bitmap H : length (eb_keys b) = n -> hash_block b = Ok H -> debug = true -> 256 <= positions false bitmap -> stops n (b, bitmap) Panics.
  (** The others. *)
  Definition goes (n : nat) (s : step) : Prop :=
    length (eb_keys (fst s)) = n /\ (exists H, hash_block (fst s) = Ok H) /\ snd s <> [] /\ length (snd s) = n /\
    (debug = true -> positions false (snd s) < 256).

  (** Enough validators of a block have signed. *)
  Definition enough (b : epoch_block E2) (bitmap : list bool) (signing : list E2) : Prop :=
    signers (eb_keys b) bitmap signing /\ ~ In gen2 signing /\ positions false bitmap <= eb_max_non_signers b /\ positions false bitmap < 256.
  (** [valid linked b steps pairs b']: the steps lead from [b] to [b'], and the (hash, aggregated key) [pairs] are to be
      signed; a block with index 0 is passed over. *)
  Inductive valid (linked : Prop) : epoch_block E2 -> list step -> list (E1 * E2) -> epoch_block E2 -> Prop :=
  | valid_end b : valid linked b [] [] b
  | valid_real b nb bitmap signing H c steps pairs b' :
      eb_index nb = eb_index b + 1 -> (linked -> entropy_value (eb_parent_entropy nb) = entropy_value (eb_epoch_entropy b)) ->
      enough b bitmap signing -> sum signing <> gz -> hash_block nb = Ok (H, c) ->
      valid linked nb steps pairs b' -> valid linked b ((nb, bitmap) :: steps) ((H, sum signing) :: pairs) b'
  | valid_dummy b nb bitmap signing steps pairs b' :
      eb_index nb = 0 -> enough b bitmap signing ->
      valid linked b steps pairs b' -> valid linked b ((nb, bitmap) :: steps) ((gen1, gen2) :: pairs) b'.
  (** The chain from [b] ends in the block [last], which has an aggregated key, and [s] signs it. *)
  Definition acceptable (b : epoch_block E2) (steps : list step) (last : epoch_block E2) (s : E1) : Prop :=
    exists pairs, valid (has_entropy b) b steps pairs last /\ eb_index last <> 0 /\ (exists c, to2 (sum (eb_keys last)) = Some c) /\ signed e gen2 s pairs.

  (** The steps of a call of [prove]. *)
  Definition steps_of (n : nat) (ts : list (transition E1 E2)) (dummies : nat) (t : transition E1 E2) : list step :=
    map (fun t => (t_block t, t_bitmap t)) ts ++ repeat (dummy_block gen2 n, repeat true n) dummies ++ [(t_block t, t_bitmap t)].
  (** The signature it aggregates. *)
  Definition aggregate (ts : list (transition E1 E2)) (dummies : nat) (t : transition E1 E2) : E1 :=
    sum (map t_signature ts ++ repeat gen1 dummies ++ [t_signature t]).
  (** Blocks of any number of validators with sound fields, bitmaps that the field can count. *)
  Definition steps_shaped (ts : list (transition E1 E2)) (dummies : nat) (t : transition E1 E2) : Prop :=
    Forall (fun t => good_block of2 to2 (length (eb_keys (t_block t))) (t_block t) /\ Z.of_nat (length (t_bitmap t)) < p) (ts ++ [t]) /\
    (dummies <> 0%nat -> good_key of2 to2 gen2).
End Outcome.
