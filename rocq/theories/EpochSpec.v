(** What a satisfied epoch circuit should mean: a chain of headers, each signed by a quorum of the previous
    committee.  Numbers are field elements because that is what the witnesses are. *)
From Verif Require Import Base Constants Group Field Curve BitsModel EncodingModel EncodingSpec HasherModel PointModel HashCurveModel HashCurveSpec CodecSpec GadgetSpec HashGadgetSpec.

(** The [n] low bits of a field element, least significant first. *)
Definition low (n : nat) (x : fq) : list bool := map (fun i => Z.testbit (fqv x) (Z.of_nat i)) (seq 0 n).

(** The bits written for a point with the given coordinates: its encoding, except that the sign bit is not
    determined for one ordinate in about p. *)
Definition undetermined (y : fq2) : Prop := midpoint (snd y) \/ (snd y = q0 /\ midpoint (fst y)).
Definition encodes (c : coords) (bits : list bool) : Prop :=
  bits = encode_coords c \/ (undetermined (snd c) /\ exists s, bits = firstn 754 (encode_coords c) ++ [s]).

Section Headers.
  Context {E1 E2 GT : grp} (e : E1 -> E2 -> GT) (gen1 : E1) (gen2 : E2).

  (** A header; every key is a group element together with the bits that stand for it in messages. *)
  Record header := mk_header {
    h_index : fq; h_round : fq; h_max : fq; h_entropy : fq; h_parent : fq; h_keys : list (E2 * list bool)
  }.
  Definition key_bits (h : header) : list bool := concat (map snd (h_keys h)).
  Definition signed_bits (h : header) : list bool := low 128 (h_entropy h) ++ low 128 (h_parent h) ++ key_bits h.
  Definition extra_bits (h : header) : list bool := low 16 (h_index h) ++ low 8 (h_round h) ++ low 32 (h_max h).
  Definition first_bits (h : header) : list bool :=
    low 16 (h_index h) ++ low 128 (h_parent h) ++ low 32 (h_max h) ++ key_bits h.
  Definition closing_bits (h : header) : list bool :=
    low 16 (h_index h) ++ low 128 (h_entropy h) ++ low 32 (h_max h) ++ key_bits h.

  (** The committee that signs the next header. *)
  Record committee := mk_committee { m_keys : list E2; m_index : fq; m_entropy : fq; m_max : fq }.
  Definition committee_of (h : header) : committee := mk_committee (map fst (h_keys h)) (h_index h) (h_entropy h) (h_max h).
  Definition quorum (c : committee) (bitmap : list bool) (signing : list E2) : Prop :=
    bitmap <> [] /\ signers (m_keys c) bitmap signing /\ ~ In gen2 signing /\
    positions false bitmap <= fqv (m_max c) < (p - 1) / 2.

  (** [opens P bits]: the bits stand for the key P; [hashes h H]: the header's message hashes to H. *)
  Context (opens : E2 -> list bool -> Prop) (hashes : header -> E1 -> Prop).
  Definition well_formed (n : nat) (h : header) : Prop :=
    length (h_keys h) = n /\ Forall (fun k => opens (fst k) (snd k)) (h_keys h).
  (** [chain linked n c hs pairs c']: from committee [c] the headers [hs] lead to [c'], signing the
      (message hash, aggregated key) [pairs]; a header with index 0 is a dummy. *)
  Inductive chain (linked : Prop) (n : nat) : committee -> list header -> list (E1 * E2) -> committee -> Prop :=
  | chain_end c : chain linked n c [] [] c
  | chain_real c h bitmap signing H hs pairs c' :
      well_formed n h -> h_index h <> q0 -> h_index h = qadd (m_index c) q1 -> (linked -> h_parent h = m_entropy c) ->
      quorum c bitmap signing -> sum signing <> gz -> hashes h H ->
      chain linked n (committee_of h) hs pairs c' ->
      chain linked n c (h :: hs) ((H, sum signing) :: pairs) c'
  | chain_dummy c h bitmap signing H hs pairs c' :
      well_formed n h -> h_index h = q0 -> quorum c bitmap signing -> hashes h H ->
      chain linked n c hs pairs c' ->
      chain linked n c (h :: hs) ((gen1, gen2) :: pairs) c'.
  (** The aggregate signature covers the pairs. *)
  Definition signed (s : E1) (pairs : list (E1 * E2)) : Prop :=
    ga (e s (gn gen2)) (sum (map (fun '(H, K) => e H K) pairs)) = gz.
End Headers.
Arguments header : clear implicits.
Arguments committee : clear implicits.

(** The headers that are not dummies. *)
Definition real_headers {E2 : grp} (hs : list (header E2)) : list (header E2) := filter (fun h => negb (qeqb (h_index h) q0)) hs.

(** The committee after some headers. *)
Definition committee_after {E2 : grp} (c : committee E2) (hs : list (header E2)) : committee E2 :=
  fold_left (fun c h => if qeqb (h_index h) q0 then c else committee_of h) hs c.

(** Indices count up from [i]. *)
Fixpoint counted {E2 : grp} (i : fq) (l : list (header E2)) : Prop :=
  match l with [] => True | h :: l => h_index h = qadd i q1 /\ counted (h_index h) l end.
(** Every header names the entropy of the one before, the first names [en]. *)
Fixpoint linked_from {E2 : grp} (en : fq) (l : list (header E2)) : Prop :=
  match l with [] => True | h :: l => h_parent h = en /\ linked_from (h_entropy h) l end.
(** The pairs are those of the headers, one each: the hash of the header and the sum of the keys of a
    quorum of the committee before it. *)
Fixpoint covered {E1 E2 : grp} (gen2 : E2) (hashes : header E2 -> E1 -> Prop) (c : committee E2) (l : list (header E2)) (pairs : list (E1 * E2)) : Prop :=
  match l, pairs with
  | [], [] => True
  | h :: l, (P, K) :: pairs =>
      hashes h P /\ (exists bitmap signing, quorum gen2 c bitmap signing /\ K = sum signing /\ K <> gz) /\ covered gen2 hashes (committee_of h) l pairs
  | _, _ => False
  end.

Section Concrete.
  Context {E1 E2 : grp} (of1 : apoint fq -> E1) (of2 : apoint fq2 -> E2) (ped : bytes -> result bytes) (compat : bool).
  (** The bits encode a point of the twist, of which [P] is the group element. *)
  Definition opens_to (P : E2) (bits : list bool) : Prop :=
    exists Q, on_twist Q = true /\ encodes (g2_coords Q) bits /\ P = of2 Q.
  (** The digest selects a point of the curve, of which [H] is the cofactor multiple (the digest with
      abscissa and sign zero also selects the point at infinity). *)
  Definition digest_selects (digest : bytes) (H : E1) : Prop :=
    (exists Q, selected (g1_sign_bit compat) (number digest) Q /\ H = smul G1_COFACTOR (of1 (Some Q))) \/
    (number digest mod 2 ^ 377 = 0 /\ Z.testbit (number digest) (g1_sign_bit compat) = false /\ H = smul G1_COFACTOR (of1 None)).
  (** Hashing with some counter. *)
  Definition hashes_to (h : header E2) (H : E1) : Prop :=
    exists message extra inner digest counter,
      bits_be_to_bytes_le (signed_bits h) = Ok message /\ bits_be_to_bytes_le (extra_bits h) = Ok extra /\
      ped message = Ok inner /\ 0 <= counter < 256 /\
      direct_xof SIG_DOMAIN ([counter] ++ extra ++ inner) 64 = Ok digest /\ digest_selects digest H.
  (** The same with the digest left open. *)
  Definition hashes_freely (h : header E2) (H : E1) : Prop :=
    exists message inner digest,
      bits_be_to_bytes_le (signed_bits h) = Ok message /\ ped message = Ok inner /\
      length digest = 64%nat /\ is_bytes digest = true /\ digest_selects digest H.
End Concrete.

(** A public input commits to the bits: the packed digests of the first and the last encoding. *)
Definition digest_bits (first last : bytes) : list bool :=
  flat_map (fun b => map (fun i => Z.testbit b (Z.of_nat i)) (seq 0 8)) (blake2_out first ++ blake2_out last).
Definition commits (inputs : list fq) (first last : bytes) : Prop :=
  exists a b, inputs = [a; b] /\ fqv a mod 2 ^ 376 = bits_number_be (firstn 376 (digest_bits first last)) /\
    fqv b mod 2 ^ 136 = bits_number_be (skipn 376 (digest_bits first last)).

(** A header shows the fields of a block: numbers modulo their width, and the padded keys (up to the sign of
    keys with an undetermined ordinate). *)
Definition same_key {E2 : grp} (of2 : apoint fq2 -> E2) (P : E2) (K : g2_point) : Prop :=
  P = of2 K \/ (undetermined (snd (g2_coords (g2_neg K))) /\ P = of2 (g2_neg K)).
Definition shows {E2 : grp} (of2 : apoint fq2 -> E2) (entropy : fq) (bytes : option bytes) (h : header E2) (b : epoch_block g2_point) : Prop :=
  fqv (h_index h) mod 2 ^ 16 = eb_index b /\ fqv (h_max h) mod 2 ^ 32 = eb_max_non_signers b /\
  fqv entropy mod 2 ^ 128 = bytes_number (entropy_value bytes) /\ Forall2 (same_key of2) (map fst (h_keys h)) (padded_keys b).
Definition shows_first {E2 : grp} (of2 : apoint fq2 -> E2) (h : header E2) b := shows of2 (h_parent h) (eb_parent_entropy b) h b.
Definition shows_last {E2 : grp} (of2 : apoint fq2 -> E2) (h : header E2) b := shows of2 (h_entropy h) (eb_epoch_entropy b) h b.

(** The statement of the circuit with [n] validators and [k] updates, for the public inputs: a header [h0] and
    a chain of [k] further headers, the last of them no dummy, whose messages the aggregate signature covers.
    [opens], [hashes] and [point] (the points a signature may be) are given; [to2] gives coordinates. *)
Section Statement.
  Context {E1 E2 GT : grp} (e : E1 -> E2 -> GT) (gen1 : E1) (gen2 : E2) (to2 : E2 -> apoint fq2).
  Context (opens : E2 -> list bool -> Prop) (hashes : header E2 -> E1 -> Prop) (point : E1 -> Prop).
  (** the aggregated key of a header and its bits *)
  Definition sums_to (h : header E2) (bits : list bool) : Prop :=
    exists c, to2 (sum (map fst (h_keys h))) = Some c /\ encodes c bits.
  (** the two messages the public inputs commit to *)
  Definition edges (inputs : list fq) (h0 last : header E2) : Prop :=
    exists agg first closing, sums_to last agg /\ bits_be_to_bytes_le (first_bits h0) = Ok first /\
      bits_be_to_bytes_le (closing_bits last ++ agg) = Ok closing /\ commits inputs first closing.
  (** [h0]: the initial header; [headers] and [last]: the further ones; [pairs]: what is signed by [s] *)
  Definition epoch_assignment (linked : Prop) (n : nat) (inputs : list fq) (h0 : header E2) (headers : list (header E2)) (last : header E2)
      (pairs : list (E1 * E2)) (s : E1) : Prop :=
    well_formed opens n h0 /\
    chain gen1 gen2 opens hashes linked n (committee_of h0) (headers ++ [last]) pairs (committee_of last) /\
    h_index last <> q0 /\ point s /\ signed e gen2 s pairs /\ edges inputs h0 last.
  Definition epoch_statement (n k : nat) (inputs : list fq) : Prop :=
    exists h0 headers last pairs s,
      length (headers ++ [last]) = k /\ epoch_assignment (h_entropy h0 <> q0) n inputs h0 headers last pairs s.
End Statement.
