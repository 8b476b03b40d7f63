(** Model of the Bowe-Hopwood-Pedersen hash behind COMPOSITE_HASHER: crates/bls-crypto/src/hashers/composite.rs
    and the parts of the dependencies it instantiates (rand_chacha 0.2.2, ark-ff, ark-ec, ark-crypto-primitives
    at the versions of Cargo.lock; their sources are not in /repo and are modelled from memory, checked against the
    test vectors of composite.rs outside the build).  Points are affine pairs: the projective representation of
    [EdwardsProjective] is not modelled and [into_affine] is the identity. *)
From Verif Require Import Base BitsModel Constants Field Curve EncodingModel Blake2 HasherModel PointModel CodecModel Edwards.

(** ** rand_chacha::ChaChaRng (20 rounds), seeded by [from_seed]: stream 0, 64-bit block counter from 0 *)
Definition rotl (x n : Z) : Z := Z.lor (w32 (Z.shiftl x n)) (Z.shiftr x (32 - n)).
Definition quarter (a b c d : nat) (v : list Z) : list Z :=
  let va := w32 (wnth a v + wnth b v) in
  let vd := rotl (Z.lxor (wnth d v) va) 16 in
  let vc := w32 (wnth c v + vd) in
  let vb := rotl (Z.lxor (wnth b v) vc) 12 in
  let va := w32 (va + vb) in
  let vd := rotl (Z.lxor vd va) 8 in
  let vc := w32 (vc + vd) in
  let vb := rotl (Z.lxor vb vc) 7 in
  upd a va (upd b vb (upd c vc (upd d vd v))).
Definition double_round (v : list Z) : list Z :=
  let v := quarter 3 7 11 15 (quarter 2 6 10 14 (quarter 1 5 9 13 (quarter 0 4 8 12 v))) in
  quarter 3 4 9 14 (quarter 2 7 8 13 (quarter 1 6 11 12 (quarter 0 5 10 15 v))).
Definition chacha_block (key : bytes) (counter : Z) : list Z :=
  let st := [1634760805; 857760878; 2036477234; 1797285236] ++ words key ++ [w32 counter; w32 (Z.shiftr counter 32); 0; 0] in
  let v := Nat.iter 10 double_round st in
  map (fun i => w32 (wnth i v + wnth i st)) (seq 0 16).
(** The [n]-th u32 of the stream ([BlockRng] hands out the words in order; next_u64 takes two, low word first). *)
Definition rng_u32 (key : bytes) (n : Z) : Z := wnth (Z.to_nat (n mod 16)) (chacha_block key (n / 16)).

(** composite.rs lines 51-66: the seed; b"ULTRALIGHT PRNG SEED" *)
Definition PRNG_MESSAGE : bytes := [85; 76; 84; 82; 65; 76; 73; 71; 72; 84; 32; 80; 82; 78; 71; 32; 83; 69; 69; 68].
Definition prng_seed : bytes := blake2s (param_block prng_params) PRNG_MESSAGE.

Section Sampling.
  Context (key : bytes) (sqrt : fq -> option fq).
  (** ark-ff [Distribution<Fp384> for Standard]: six u64 limbs, the top 7 bits masked, rejected unless below the
      modulus, and read as a Montgomery representation.  State: the number of u32 words consumed.  The loop of
      the code has no bound; [fuel] attempts are modelled. *)
  Definition limbs (n : Z) : Z := fold_right (fun i acc => rng_u32 key (n + Z.of_nat i) + 2 ^ 32 * acc) 0 (seq 0 12).
  Fixpoint field_rand (fuel : nat) (n : Z) : option (fq * Z) :=
    match fuel with
    | O => None
    | S f => let v := limbs n mod 2 ^ 377 in
             if v <? p then Some (qdiv (fq_of v) (fq_of (2 ^ 384)), n + 12) else field_rand f (n + 12)
    end.
  (** ark-ec twisted_edwards_extended [get_point_from_x], a = -1; the inverse of 0 is [None] *)
  Definition ed_point_from_x (x : fq) (greatest : bool) : option (fq * fq) :=
    let x2 := qmul x x in
    let numerator := qsub (qopp x2) q1 in
    let denominator := qsub (qmul ED_D x2) q1 in
    if qeqb denominator q0 then None
    else match sqrt (qdiv numerator denominator) with
         | None => None
         | Some y => let negy := qopp y in Some (x, if xorb (q_ltb y negy) greatest then y else negy)
         end.
  (** [scale_by_cofactor]: [mul_bits] over the bits of COFACTOR = 8, most significant first *)
  Definition ed_mul_bits (bits : list bool) (P : fq * fq) : fq * fq :=
    fold_left (fun (res : fq * fq) (b : bool) => let res := ed_add res res in if b then ed_add res P else res) bits ed_zero.
  Definition ED_COFACTOR_BITS : list bool := [true; false; false; false].
  (** [Distribution<GroupProjective> for Standard]: x, then one bool (the sign bit of a u32), until a point is found *)
  Fixpoint point_rand (fuel : nat) (n : Z) : option ((fq * fq) * Z) :=
    match fuel with
    | O => None
    | S f => match field_rand fuel n with
             | None => None
             | Some (x, n') =>
               let greatest := 2 ^ 31 <=? rng_u32 key n' in
               match ed_point_from_x x greatest with
               | Some P => Some (ed_mul_bits ED_COFACTOR_BITS P, n' + 1)
               | None => point_rand f (n' + 1)
               end
             end
    end.

  (** composite.rs lines 23-26 *)
  Definition WINDOW_SIZE : nat := 93.
  Definition NUM_WINDOWS : nat := 560.
  (** bowe_hopwood.rs: CHUNK_SIZE *)
  Definition CHUNK_SIZE : nat := 3.
  (** bowe_hopwood.rs [create_generators]: one random base per window; each next generator is 2^4 times the last *)
  Fixpoint segment_generators (n : nat) (base : fq * fq) : list (fq * fq) :=
    match n with O => [] | S n' => base :: segment_generators n' (Nat.iter 4 (fun P => ed_add P P) base) end.
  Fixpoint create_bases (windows fuel : nat) (n : Z) : option (list (fq * fq)) :=
    match windows with
    | O => Some []
    | S w => match point_rand fuel n with
             | None => None
             | Some (P, n') => match create_bases w fuel n' with None => None | Some l => Some (P :: l) end
             end
    end.
  (** [setup]; the check that WINDOW_SIZE is at most the number of chunks a scalar can absorb (93, computed below)
      succeeds for these constants and is left out *)
  Definition crh_setup (fuel : nat) : option (list (list (fq * fq))) :=
    match create_bases NUM_WINDOWS fuel 0 with
    | None => None
    | Some l => Some (map (segment_generators WINDOW_SIZE) l)
    end.
End Sampling.

(** bowe_hopwood.rs [setup], [calculate_num_chunks_in_segment]: the largest c with 2 * 2^(4(c-1)) below half the
    scalar modulus, here the order [ED_ORDER] of the prime order subgroup *)
Definition ED_ORDER : Z := 32333053251621136751331591711861691692049189094364332567435817881934511297123972799646723302813083835942624121493.
Fixpoint num_chunks (fuel : nat) (range : Z) : nat :=
  match fuel with O => O | S f => if range <? (ED_ORDER - 1) / 2 then S (num_chunks f (range * 2 ^ 4)) else O end.

(** bowe_hopwood.rs [evaluate]: one chunk of three bits against its generator *)
Definition encode_chunk (chunk : list bool) (g : fq * fq) : fq * fq :=
  let e := g in
  let e := if nth 0 chunk false then ed_add e g else e in
  let e := if nth 1 chunk false then ed_add e (ed_add g g) else e in
  if nth 2 chunk false then ed_neg e else e.
(** [.map(..).sum()]; rayon may sum in any order *)
Definition ed_sum (l : list (fq * fq)) : fq * fq := fold_left ed_add l ed_zero.
Definition segment_value (seg : list bool) (gens : list (fq * fq)) : fq * fq :=
  ed_sum (map (fun '(c, g) => encode_chunk c g) (combine (chunks CHUNK_SIZE seg) gens)).
Definition pad_bits (bits : list bool) : list bool :=
  if (length bits mod CHUNK_SIZE =? 0)%nat then bits else bits ++ repeat false (CHUNK_SIZE - length bits mod CHUNK_SIZE).
(** the length check and the assertions on the shape of the parameters panic *)
Definition crh_evaluate (gens : list (list (fq * fq))) (input : bytes) : result (fq * fq) :=
  if Z.of_nat (WINDOW_SIZE * NUM_WINDOWS) * 3 <? Z.of_nat (length input) * 8 then Panic
  else
    let bits := pad_bits (flat_map (byte_bits 8) input) in
    if negb ((length gens =? NUM_WINDOWS)%nat && forallb (fun g => (length g =? WINDOW_SIZE)%nat) gens) then Panic
    else Ok (ed_sum (map (fun '(s, g) => segment_value s g) (combine (chunks (WINDOW_SIZE * CHUNK_SIZE) bits) gens))).
(** composite.rs lines 79-85: evaluate, into_affine, serialize x *)
Definition composite_crh (gens : list (list (fq * fq))) (message : bytes) : result bytes :=
  rbind (crh_evaluate gens message) (fun h => Ok (fq_write (fst h) 0)).
(** The x coordinate alone.  It instantiates the parameter [ped] of HashGadgetModel.v: bls-gadgets/src/hash_to_group.rs
    lines 148-177 evaluate the same hash with the same parameters as constraints.  Beyond the limit the native hash,
    which the prover computes before the constraints, panics; the gadget is then never reached. *)
Definition crh_x (gens : list (list (fq * fq))) (message : bytes) : option fq :=
  match crh_evaluate gens message with Ok h => Some (fst h) | _ => None end.
