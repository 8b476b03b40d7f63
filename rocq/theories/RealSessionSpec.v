(** Vocabulary for C74. *)
From Verif Require Import Base Constants Group Field Curve PointModel CacheModel CacheSpec EncodingModel HashCurveSpec CodecModel CodecSpec CurveGroups OrderSpec TwistSpec RealModel RealBatchSpec RealSessionModel.

(** Every set is visited completely, and the keys are bytes. *)
Definition proper {sqrt2 fh} (q : request sqrt2 fh) : Prop :=
  match q with
  | Aggregate o1 o2 ks => fair o1 /\ fair o2 /\ Forall (fun k => is_bytes (g_bytes k) = true) ks
  | Subtract o1 o2 a ks => fair o1 /\ fair o2 /\ is_bytes (g_bytes a) = true /\ Forall (fun k => is_bytes (g_bytes k) = true) ks
  end.
(** [P] is the sum of the different points among those the keys encode. *)
Definition sum_of_distinct (ks : list given) (P : g2_point) : Prop :=
  exists Ps D, Forall2 key_bytes (map g_bytes ks) Ps /\ NoDup D /\ (forall Q, In Q D <-> In Q Ps) /\ P = fold_right g2_add None D.
(** What a request is answered, nothing else being known than the bytes in it. *)
Definition owed {sqrt2 fh} (q : request sqrt2 fh) (out : bytes) : Prop :=
  match q with
  | Aggregate _ _ ks => exists P, sum_of_distinct ks P /\ out = public_key_serialize P
  | Subtract _ _ a ks => exists A P Q, key_bytes (g_bytes a) A /\ sum_of_distinct ks P /\ in_g2 Q /\ g2_add Q P = A /\ out = public_key_serialize Q
  end.
(** The same keys, by their first 96 bytes. *)
Definition key_part (k : given) : bytes := firstn 96 (g_bytes k).
Definition same_keys (ks ks' : list given) : Prop := forall b, In b (map key_part ks) <-> In b (map key_part ks').
