(** Specification vocabulary for C12-C16, without reference to the cache's own helpers. *)
From Coq Require Import Permutation.
From Verif Require Import Base Group CacheModel.

Section Spec.
Context {E : cenv}.
Notation rep := (jac (F E)).
Notation G := (PG E).

Definition sum_of (l : list rep) : G := fold_right (fun k acc => (pt k + acc)%G) gz l.

(** [P] is the sum over the set of distinct representations occurring in [pks]. *)
Definition set_sum (pks : list rep) (P : G) : Prop :=
  exists D, NoDup D /\ (forall k, In k D <-> In k pks) /\ P = sum_of D.

(** An iteration order visits every element once. *)
Definition fair (o : order E) : Prop := forall l, Permutation (o l) l.
Definition fair_op (o : cop E) : Prop :=
  match o with OpAggregate o1 o2 _ => fair o1 /\ fair o2 | _ => True end.
Definition fair_call (f : fcall E) : Prop :=
  match f with FAggregate o1 o2 _ | FSubtract o1 o2 _ _ => fair o1 /\ fair o2 | _ => True end.

(** What a decoding returns in a fresh process. *)
Definition fresh_decode (data : bytes) : result rep :=
  match decode data with Some v => Ok v | None => Err SerializationError end.

(** The byte strings successfully decoded since the last clear, most recent first, with repetitions. *)
Fixpoint recent (h : list (cop E)) (acc : list bytes) : list bytes :=
  match h with
  | [] => acc
  | OpDeserialize d :: h' => recent h' (match decode (c := E) d with Some _ => d :: acc | None => acc end)
  | OpAggregate _ _ _ :: h' => recent h' acc
  | OpClear :: h' => recent h' []
  end.

(** Keep the first occurrence of every element. *)
Definition bytes_dec : forall a b : bytes, {a = b} + {a <> b} := list_eq_dec Z.eq_dec.
Fixpoint firsts (l : list bytes) : list bytes :=
  match l with [] => [] | x :: l' => x :: remove bytes_dec x (firsts l') end.

(** The result a call would have on its own. *)
Definition alone (f : fcall E) (out : cout) : Prop :=
  match f, out with
  | FDeserialize d, OutKey x => x = fresh_decode d
  | FAggregate _ _ pks, OutPoint P => set_sum pks P
  | FSubtract _ _ agg pks, OutPoint P => exists Q, set_sum pks Q /\ P = (pt agg - Q)%G
  | _, _ => False
  end.
End Spec.
