(** A process that calls the C interface again and again with keys given as bytes, all calls sharing the cache (bls-snark-sys/src/cache.rs). *)
From Verif Require Import Base Constants Group Field Curve PointModel CacheModel EncodingModel CodecModel FfiModel CurveGroups OrderSpec TwistSpec RealSpec RealModel.

(** A key as bytes, with the function it is read by: deserialize_public_key_cached or deserialize_public_key. *)
Record given := Given { g_cached : bool; g_bytes : bytes }.
Section Session.
  Context (sqrt2 : fq2 -> option fq2) (fh : fq2 -> Z).
  Notation E := (real_cache sqrt2 fh).
  (** aggregate_public_keys (signatures.rs lines 427-450) and aggregate_public_keys_subtract (lines 453-482), with the orders in which
      the hash sets are visited. *)
  Inductive request :=
  | Aggregate (o1 o2 : order E) (ks : list given)
  | Subtract (o1 o2 : order E) (a : given) (ks : list given).
  (** serialization.rs lines 24-60 *)
  Definition take_key (c : cache E) (k : given) : cache E * option (jac fq2) :=
    if g_cached k
    then let '(c', x) := ffi_deserialize_public_key_cached c (g_bytes k) in (c', then_call x (fun J => Some J))
    else (c, then_call (read_key sqrt2 (g_bytes k)) (fun P => Some (jac2 P))).
  (** One key after the other; the caller stops at the first that cannot be read. *)
  Fixpoint take_keys (c : cache E) (ks : list given) : cache E * option (list (jac fq2)) :=
    match ks with
    | [] => (c, Some [])
    | k :: ks' =>
      match take_key c k with
      | (c1, Some J) => let '(c2, x) := take_keys c1 ks' in (c2, option_map (cons J) x)
      | (c1, None) => (c1, None)
      end
    end.
  (** serialize_public_key of the key made *)
  Definition write_key (x : reply (sub g2_curve)) : option bytes :=
    then_call x (fun P => then_call (ffi_serialize public_key_serialize (to2 P)) (fun out => Some (fst out))).
  Definition serve (c : cache E) (q : request) : cache E * option bytes :=
    match q with
    | Aggregate o1 o2 ks =>
      match take_keys c ks with
      | (c1, Some Js) => let '(c2, x) := ffi_aggregate_public_keys o1 o2 c1 Js in (c2, write_key x)
      | (c1, None) => (c1, None)
      end
    | Subtract o1 o2 a ks =>
      match take_key c a with
      | (c0, Some J) =>
        match take_keys c0 ks with
        | (c1, Some Js) => let '(c2, x) := ffi_aggregate_public_keys_subtract o1 o2 c1 J Js in (c2, write_key x)
        | (c1, None) => (c1, None)
        end
      | (c0, None) => (c0, None)
      end
    end.
  (** The cache after the requests, and their answers. *)
  Definition after (qs : list request) : cache E := fold_left (fun c q => fst (serve c q)) qs cache_new.
  Fixpoint answers (c : cache E) (qs : list request) : list (option bytes) :=
    match qs with [] => [] | q :: qs' => let '(c', x) := serve c q in x :: answers c' qs' end.
  (** The same calls while other threads use the cache: the mutex is taken for each call by itself, so other calls [h] may come in
      before each of them. *)
  Definition meanwhile (c : cache E) (h : list (cop E)) : cache E := fold_left (fun c o => fst (cstep c o)) h c.
  Fixpoint take_keys_amid (c : cache E) (ks : list (list (cop E) * given)) : cache E * option (list (jac fq2)) :=
    match ks with
    | [] => (c, Some [])
    | (h, k) :: ks' =>
      match take_key (meanwhile c h) k with
      | (c1, Some J) => let '(c2, x) := take_keys_amid c1 ks' in (c2, option_map (cons J) x)
      | (c1, None) => (c1, None)
      end
    end.
  Definition aggregate_amid (o1 o2 : order E) (c : cache E) (ks : list (list (cop E) * given)) (h : list (cop E)) : option bytes :=
    match take_keys_amid c ks with
    | (c1, Some Js) => write_key (snd (ffi_aggregate_public_keys o1 o2 (meanwhile c1 h) Js))
    | (_, None) => None
    end.
  Definition subtract_amid (o1 o2 : order E) (c : cache E) (a : list (cop E) * given) (ks : list (list (cop E) * given)) (h : list (cop E)) : option bytes :=
    match take_key (meanwhile c (fst a)) (snd a) with
    | (c0, Some J) =>
      match take_keys_amid c0 ks with
      | (c1, Some Js) => write_key (snd (ffi_aggregate_public_keys_subtract o1 o2 (meanwhile c1 h) J Js))
      | (_, None) => None
      end
    | (_, None) => None
    end.
End Session.
Arguments aggregate_amid {sqrt2 fh}. Arguments subtract_amid {sqrt2 fh}. Arguments take_keys_amid {sqrt2 fh}. Arguments meanwhile {sqrt2 fh}.
Arguments Aggregate {sqrt2 fh}. Arguments Subtract {sqrt2 fh}. Arguments serve {sqrt2 fh}. Arguments take_key {sqrt2 fh}. Arguments take_keys {sqrt2 fh}. Arguments answers {sqrt2 fh}. Arguments after {sqrt2 fh}.
