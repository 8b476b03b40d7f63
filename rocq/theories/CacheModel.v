(** Model of crates/bls-crypto/src/bls/cache.rs (PublicKeyCache) and of the global mutex around it
    (crates/bls-snark-sys/src/cache.rs, signatures.rs 428-482, serialization.rs 44-60).

    Simplifications: [LruCache] (lru 0.7.8, a dependency) is a list of pairs, most recently used first;
    [HashSet] is a duplicate-free list whose iteration order is chosen by the environment at every
    iteration; the field elements of a Jacobian representation are an arbitrary type with decidable
    equality; the public fields [combined] and [de] are only changed through the methods. *)
From Verif Require Import Base Group.

(** A Jacobian representation (x, y, z) of a G2 point ([G2Projective]). *)
Record jac (F : Type) := Jac { jx : F; jy : F; jz : F }.
Arguments Jac {F}. Arguments jx {F}. Arguments jy {F}. Arguments jz {F}.

(** Everything the cache calls: coordinate equality, the hash of a coordinate, the point denoted by a
    representation and [PublicKey::deserialize]. *)
Record cenv := CEnv {
  F : Type;
  feqb : F -> F -> bool;
  feqb_spec : forall a b, feqb a b = true <-> a = b;
  fhash : F -> Z;
  PG : grp;
  pt : jac F -> PG;
  decode : bytes -> option (jac F)
}.
Arguments feqb {c}. Arguments fhash {c}. Arguments pt {c}. Arguments decode {c}.

(** [Vec<u8>] equality *)
Fixpoint bytes_eqb (a b : bytes) : bool :=
  match a, b with
  | [], [] => true
  | x :: a', y :: b' => (x =? y) && bytes_eqb a' b'
  | _, _ => false
  end.

(** ** lru 0.7.8, the operations used *)
Section Lru.
Context {V : Type}.
Definition lru := list (bytes * V).
Definition lru_find (l : lru) (k : bytes) : option V :=
  option_map snd (find (fun kv => bytes_eqb k (fst kv)) l).
Definition lru_remove (l : lru) (k : bytes) : lru := filter (fun kv => negb (bytes_eqb k (fst kv))) l.
(** [get]: returns the value and moves the entry to the front. *)
Definition lru_get (l : lru) (k : bytes) : option V * lru :=
  match lru_find l k with
  | Some v => (Some v, (k, v) :: lru_remove l k)
  | None => (None, l)
  end.
(** [put]: replaces an existing entry (moving it to the front); otherwise drops the least recently used
    entry when the capacity is reached and inserts at the front. *)
Definition lru_put (cap : nat) (l : lru) (k : bytes) (v : V) : lru :=
  match lru_find l k with
  | Some _ => (k, v) :: lru_remove l k
  | None => (k, v) :: (if (length l =? cap)%nat then removelast l else l)
  end.
End Lru.
Arguments lru V : clear implicits.

Section Cache.
Context {E : cenv}.
Notation rep := (jac (F E)).
Notation G := (PG E).

(** cache.rs lines 94-104 and 106-111 *)
Definition wrapped_eq (a b : rep) : bool :=
  feqb (jx a) (jx b) && feqb (jy a) (jy b) && feqb (jz a) (jz b).
Definition wrapped_hash (a : rep) : Z := fhash (jy a).

(** [std::collections::HashSet]: two keys are identified when their hashes agree and they are equal. *)
Definition hs_same (a b : rep) : bool := (wrapped_hash a =? wrapped_hash b) && wrapped_eq a b.
Definition hs_contains (s : list rep) (k : rep) : bool := existsb (hs_same k) s.
Definition hs_insert (s : list rep) (k : rep) : list rep := if hs_contains s k then s else k :: s.
Definition hs_difference (s t : list rep) : list rep := filter (fun k => negb (hs_contains t k)) s.

(** lines 14-22 *)
Record cache := Cache { keys : list rep; combined : G; de : lru rep }.

(** lines 32-38: [LruCache::new(512)] *)
Definition DE_CAPACITY : nat := 512.
Definition cache_new : cache := Cache [] gz [].
(** lines 41-45 *)
Definition clear_cache (c : cache) : cache := Cache [] gz [].
(** lines 49-61 *)
Definition cache_deserialize (c : cache) (data : bytes) : cache * result rep :=
  match lru_get (de c) data with
  | (Some v, de') => (Cache (keys c) (combined c) de', Ok v)
  | (None, de') =>
    match decode data with
    | None => (Cache (keys c) (combined c) de', Err SerializationError)
    | Some v => (Cache (keys c) (combined c) (lru_put DE_CAPACITY de' data v), Ok v)
    end
  end.

(** An iteration order of a hash set. *)
Definition order := list rep -> list rep.

(** lines 65-87; [o1], [o2] are the orders in which the two differences are visited. *)
Definition new_keys (pks : list rep) : list rep := fold_left hs_insert pks [].
Definition new_combined (o1 o2 : order) (old : list rep) (comb : G) (ks : list rep) : G :=
  let c1 := fold_left (fun acc k => (acc - pt k)%G) (o1 (hs_difference old ks)) comb in
  fold_left (fun acc k => (acc + pt k)%G) (o2 (hs_difference ks old)) c1.
Definition cache_aggregate (o1 o2 : order) (c : cache) (pks : list rep) : cache * G :=
  let ks := new_keys pks in
  let comb := new_combined o1 o2 (keys c) (combined c) ks in
  (Cache ks comb (de c), comb).

(** [PublicKey::aggregate] (public.rs lines 38-44) on representations. *)
Definition plain_aggregate (pks : list rep) : G := gsum (map pt pks).

(** ** Histories *)
Inductive cop :=
| OpDeserialize (data : bytes)
| OpAggregate (o1 o2 : order) (pks : list rep)
| OpClear.
Inductive cout :=
| OutKey (x : result rep)
| OutPoint (P : G)
| OutUnit.

Definition cstep (c : cache) (o : cop) : cache * cout :=
  match o with
  | OpDeserialize d => let '(c', x) := cache_deserialize c d in (c', OutKey x)
  | OpAggregate o1 o2 pks => let '(c', P) := cache_aggregate o1 o2 c pks in (c', OutPoint P)
  | OpClear => (clear_cache c, OutUnit)
  end.
Definition crun (h : list cop) : cache := fold_left (fun c o => fst (cstep c o)) h cache_new.

(** ** FFI calls on the shared cache *)
Inductive fcall :=
| FDeserialize (data : bytes)                                   (* deserialize_public_key_cached *)
| FAggregate (o1 o2 : order) (pks : list rep)                   (* aggregate_public_keys *)
| FSubtract (o1 o2 : order) (agg : rep) (pks : list rep).       (* aggregate_public_keys_subtract *)

(** What one thread is doing.  [Hold f]: the lock is held and the call has not touched the cache.
    [Mid comb f]: inside [aggregate], after [self.keys = keys] and before [self.combined = ..]
    (cache.rs lines 83-84).  [Fin]: the call's result is computed, the guard is about to be dropped. *)
Inductive phase :=
| Idle
| Hold (f : fcall)
| Mid (comb : G) (f : fcall)
| Fin.

Record thread := Thread { prog : list fcall; ph : phase }.
(** A finished call: thread, call, output. *)
Definition event := (nat * fcall * cout)%type.
Record sys := Sys { shared : cache; lock : option nat; threads : list thread; trace : list event }.

Definition set_thread (l : list thread) (i : nat) (t : thread) : list thread :=
  firstn i l ++ t :: skipn (S i) l.

(** One scheduler step of thread [i]; [None] when it cannot move (finished or blocked on the mutex).
    [locked = false] is the hypothetical system without the mutex, used by an example only. *)
Definition sstep (locked : bool) (s : sys) (i : nat) : option sys :=
  match nth_error (threads s) i with
  | None => None
  | Some t =>
    match ph t with
    | Idle =>
      match prog t with
      | [] => None
      | f :: rest =>
        match locked, lock s with
        | true, Some _ => None
        | _, _ => Some (Sys (shared s) (Some i) (set_thread (threads s) i (Thread rest (Hold f))) (trace s))
        end
      end
    | Hold (FDeserialize d) =>
      let '(c', x) := cache_deserialize (shared s) d in
      Some (Sys c' (lock s) (set_thread (threads s) i (Thread (prog t) Fin))
                (trace s ++ [(i, FDeserialize d, OutKey x)]))
    | Hold ((FAggregate o1 o2 pks | FSubtract o1 o2 _ pks) as f) =>
      let c := shared s in
      let comb := new_combined o1 o2 (keys c) (combined c) (new_keys pks) in
      Some (Sys (Cache (new_keys pks) (combined c) (de c)) (lock s)
                (set_thread (threads s) i (Thread (prog t) (Mid comb f))) (trace s))
    | Mid comb f =>
      let c := shared s in
      let out := match f with FSubtract _ _ agg _ => (pt agg - comb)%G | _ => comb end in
      Some (Sys (Cache (keys c) comb (de c)) (lock s)
                (set_thread (threads s) i (Thread (prog t) Fin)) (trace s ++ [(i, f, OutPoint out)]))
    | Fin => Some (Sys (shared s) None (set_thread (threads s) i (Thread (prog t) Idle)) (trace s))
    end
  end.

Definition sys_init (progs : list (list fcall)) : sys :=
  Sys cache_new None (map (fun p => Thread p Idle) progs) [].

(** A schedule is the list of thread indices chosen by the scheduler; blocked choices do nothing. *)
Definition srun (locked : bool) (progs : list (list fcall)) (sched : list nat) : sys :=
  fold_left (fun s i => match sstep locked s i with Some s' => s' | None => s end) sched (sys_init progs).
End Cache.
Arguments cache E : clear implicits.
Arguments cop E : clear implicits.
Arguments fcall E : clear implicits.
Arguments order E : clear implicits.
