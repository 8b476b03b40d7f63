(** Model of crates/bls-crypto/src/bls/{secret,public,signature,batch}.rs over an arbitrary pairing
    structure and an arbitrary hash-to-G1 oracle.

    Simplifications: [G1Projective]/[G2Projective] values are elements of the prime-order groups (the
    subgroup check of deserialisation is modelled in CodecModel.v); normalisation to affine form
    ([into_affine], [batch_normalization_into_affine]) is the identity on group elements;
    [product_of_pairings] is the sum of pairings in the (additively written) target group and
    [Fq12::one()] is its zero; [VariableBaseMSM::multi_scalar_mul] is the sum of multiples. *)
From Verif Require Import Base Constants Group.

(** One call of [HashToCurve::hash]: (domain, message, extra_data). *)
Definition query := (bytes * bytes * bytes)%type.

(** A computation that may query the hash oracle: the queries made, in order, and the outcome. *)
Definition run (A : Type) := (list query * result A)%type.
Definition ret {A} (x : A) : run A := ([], Ok x).
Definition fail {A} (x : bls_error) : run A := ([], Err x).
Definition panic {A} : run A := ([], Panic).
Definition bind {A B} (m : run A) (f : A -> run B) : run B :=
  match m with
  | (q, Ok a) => let '(q', x) := f a in (q ++ q', x)
  | (q, Err x) => (q, Err x)
  | (q, Panic) => (q, Panic)
  end.
Definition outcome {A} (m : run A) : result A := snd m.
Definition queries {A} (m : run A) : list query := fst m.

Section Bls.
Context {pr : pairing}.
Notation G1 := (G1 pr).
Notation G2 := (G2 pr).

(** [HashToCurve<Output = G1Projective>] (bls-crypto/src/hash_to_curve/mod.rs lines 30-50). *)
Definition hasher := bytes -> bytes -> bytes -> result G1.
Definition do_hash (h : hasher) (d m x : bytes) : run G1 := ([(d, m, x)], h d m x).

(** [Bls12_377::product_of_pairings] compared with [Fq12::one()]. *)
Definition product_of_pairings (l : list (G1 * G2)) : GT pr := gsum (map (fun '(P, Q) => e P Q) l).
Definition pairing_is_one (l : list (G1 * G2)) : bool := geqb (product_of_pairings l) gz.

(** ** secret.rs *)
(** public.rs lines 24-28 and secret.rs lines 70-72: [PrivateKey::to_public]. *)
Definition to_public (sk : Z) : G2 := smul sk gen2.
(** secret.rs lines 65-67 *)
Definition sign_raw (sk : Z) (hash : G1) : G1 := smul sk hash.
(** secret.rs lines 54-63 *)
Definition sign_message (h : hasher) (sk : Z) (domain message extra : bytes) : run G1 :=
  bind (do_hash h domain message extra) (fun hash => ret (sign_raw sk hash)).
(** secret.rs lines 34-41 *)
Definition sign (h : hasher) (sk : Z) (message extra : bytes) : run G1 :=
  sign_message h sk SIG_DOMAIN message extra.
(** secret.rs lines 45-51 *)
Definition sign_pop (h : hasher) (sk : Z) (message : bytes) : run G1 :=
  sign_message h sk POP_DOMAIN message [].

(** ** public.rs *)
(** lines 94-120 *)
Definition verify_sig (h : hasher) (pk : G2) (domain message extra : bytes) (sig : G1) : run unit :=
  bind (do_hash h domain message extra) (fun hash =>
    if pairing_is_one [(sig, gn gen2); (hash, pk)] then ret tt else fail VerificationFailed).
(** lines 71-79 *)
Definition verify (h : hasher) (pk : G2) (message extra : bytes) (sig : G1) : run unit :=
  verify_sig h pk SIG_DOMAIN message extra sig.
(** lines 85-92 *)
Definition verify_pop (h : hasher) (pk : G2) (message : bytes) (sig : G1) : run unit :=
  verify_sig h pk POP_DOMAIN message [] sig.
(** lines 38-44 and signature.rs lines 61-67 *)
Definition aggregate_pk (l : list G2) : G2 := gsum l.
Definition aggregate_sig (l : list G1) : G1 := gsum l.
(** [VariableBaseMSM::multi_scalar_mul]: sum over the zip of bases and scalars. *)
Definition msm {G : grp} (bases : list G) (scalars : list Z) : G :=
  gsum (map (fun '(P, k) => smul k P) (combine bases scalars)).
(** public.rs lines 47-65 and signature.rs lines 70-89 *)
Definition batch_points {G : grp} (exponents : list Z) (points : list G) : option G :=
  if negb (length points =? length exponents)%nat then None else Some (msm points exponents).

(** ** signature.rs *)
(** lines 125-155 *)
Definition batch_verify_hashes (sig : G1) (pubkeys : list G2) (hashes : list G1) : run unit :=
  if negb (length pubkeys =? length hashes)%nat then fail UnevenNumKeysMessages
  else
    let els := (sig, gn gen2) :: combine hashes pubkeys in
    if pairing_is_one els then ret tt else fail VerificationFailed.

(** lines 111-114: hashing of all messages, stopping at the first error. *)
Fixpoint hash_all (h : hasher) (domain : bytes) (messages : list (bytes * bytes)) : run (list G1) :=
  match messages with
  | [] => ret []
  | (m, x) :: rest =>
    bind (do_hash h domain m x) (fun P => bind (hash_all h domain rest) (fun Ps => ret (P :: Ps)))
  end.

(** lines 101-117 *)
Definition batch_verify (h : hasher) (sig : G1) (pubkeys : list G2) (domain : bytes)
    (messages : list (bytes * bytes)) : run unit :=
  if negb (length pubkeys =? length messages)%nat then fail UnevenNumKeysMessages
  else bind (hash_all h domain messages) (fun hashes => batch_verify_hashes sig pubkeys hashes).

(** ** batch.rs *)
(** line 20 *)
Definition SECURITY_BOUND : Z := 128.
(** [ark_std::log2]: ceiling of the base-2 logarithm, 0 at 0. *)
Definition ark_log2 (n : Z) : Z := Z.log2_up n.
(** [Fr::size_in_bits()] *)
Definition fr_size_in_bits : Z := 253.
(** lines 23-28 *)
Definition byte_count_from_target_batch_size (size target : Z) : Z :=
  let target_byte_count := (target + ark_log2 size + 7) / 8 in
  let field_byte_count := fr_size_in_bits / 8 in
  Z.min target_byte_count field_byte_count.

(** Little-endian value of a byte string. *)
Fixpoint le_val (l : bytes) : Z := match l with [] => 0 | b :: l' => b + 256 * le_val l' end.

(** ark-ff [Fr::from_random_bytes]: little-endian value of (at most) the first 32 bytes, masked to
    the 253 bits of the modulus, accepted iff below the modulus. *)
Definition fr_from_random_bytes (l : bytes) : option Z :=
  let v := (le_val (firstn 32 l)) mod 2 ^ fr_size_in_bits in
  if v <? r then Some v else None.

(** lines 13-18 *)
Record batch := Batch { entries : list (G2 * G1); b_message : bytes; b_extra : bytes }.
(** lines 32-38 *)
Definition batch_new (message extra : bytes) : batch := Batch [] message extra.
(** lines 40-42 *)
Definition batch_add (b : batch) (pk : G2) (sig : G1) : batch :=
  Batch (entries b ++ [(pk, sig)]) (b_message b) (b_extra b).

(** Number of random bytes drawn per entry (line 51). *)
Definition exp_size (b : batch) : Z :=
  byte_count_from_target_batch_size (Z.of_nat (length (entries b))) SECURITY_BOUND.

(** lines 53-67: [.unwrap()] of every scalar. *)
Fixpoint unwrap_scalars (l : list bytes) : result (list Z) :=
  match l with
  | [] => Ok []
  | b :: l' => match fr_from_random_bytes b with
               | None => Panic
               | Some v => rbind (unwrap_scalars l') (fun vs => Ok (v :: vs))
               end
  end.

(** lines 44-84.  [rnd] are the byte strings written by [thread_rng().fill_bytes], one per entry, of
    [exp_size] bytes each (a premise of the theorems). *)
Definition batch_verify_random (h : hasher) (b : batch) (rnd : list bytes) : run unit :=
  match unwrap_scalars rnd with
  | Panic => panic | Err x => fail x
  | Ok exponents =>
    match batch_points exponents (map fst (entries b)) with
    | None => panic
    | Some bpk =>
      match batch_points exponents (map snd (entries b)) with
      | None => panic
      | Some bsig => verify h bpk (b_message b) (b_extra b) bsig
      end
    end
  end.

(** lines 87-96 *)
Fixpoint verify_each_entries (h : hasher) (m x : bytes) (l : list (G2 * G1)) : run unit :=
  match l with
  | [] => ret tt
  | (pk, sig) :: l' => bind (verify h pk m x sig) (fun _ => verify_each_entries h m x l')
  end.
Definition verify_each (h : hasher) (b : batch) : run unit :=
  verify_each_entries h (b_message b) (b_extra b) (entries b).
End Bls.
Arguments hasher pr : clear implicits.
Arguments batch pr : clear implicits.
