(** Property theorems C12-C16 (public-key cache). *)
From Coq Require Import Permutation.
From Verif Require Import Base Group CacheModel CacheSpec CacheProofs.

(** C12 *)
Theorem C12_aggregate_is_set_sum_after_any_history : forall (E : cenv) (h : list (cop E)) o1 o2 pks,
  Forall fair_op h -> fair o1 -> fair o2 ->
  set_sum pks (snd (cache_aggregate o1 o2 (crun h) pks)).
Proof. exact (fun E => aggregate_any_history (E := E)). Qed.
Print Assumptions C12_aggregate_is_set_sum_after_any_history.

Theorem C12_history_order_and_iteration_independent :
  forall (E : cenv) (h h' : list (cop E)) o1 o2 o1' o2' pks pks',
  Forall fair_op h -> Forall fair_op h' -> fair o1 -> fair o2 -> fair o1' -> fair o2' ->
  (forall k, In k pks <-> In k pks') ->
  snd (cache_aggregate o1 o2 (crun h) pks) = snd (cache_aggregate o1' o2' (crun h') pks').
Proof. exact (fun E => aggregate_history_independent (E := E)). Qed.
Print Assumptions C12_history_order_and_iteration_independent.

(** C13 *)
Theorem C13_cached_equals_plain_without_duplicates : forall (E : cenv) (h : list (cop E)) o1 o2 pks,
  Forall fair_op h -> fair o1 -> fair o2 -> NoDup pks ->
  snd (cache_aggregate o1 o2 (crun h) pks) = plain_aggregate pks.
Proof. exact (fun E => cached_eq_plain (E := E)). Qed.
Print Assumptions C13_cached_equals_plain_without_duplicates.

Theorem C13_duplicates_counted_once : forall (E : cenv) (h : list (cop E)) o1 o2 pks dups,
  Forall fair_op h -> fair o1 -> fair o2 -> (forall k, In k dups -> In k pks) -> NoDup pks ->
  plain_aggregate (pks ++ dups) =
    (snd (cache_aggregate o1 o2 (crun h) (pks ++ dups)) + plain_aggregate dups)%G /\
  (snd (cache_aggregate o1 o2 (crun h) (pks ++ dups)) = plain_aggregate (pks ++ dups) <->
   plain_aggregate dups = gz).
Proof.
  exact (fun E h o1 o2 pks dups F F1 F2 Hd HN =>
    conj (cached_excess h o1 o2 pks dups F F1 F2 Hd HN) (cached_neq_plain h o1 o2 pks dups F F1 F2 Hd HN)).
Qed.
Print Assumptions C13_duplicates_counted_once.

Theorem C13_two_representations_counted_twice : forall (E : cenv) (h : list (cop E)) o1 o2 a b,
  Forall fair_op h -> fair o1 -> fair o2 -> a <> b -> pt a = pt b ->
  snd (cache_aggregate o1 o2 (crun h) [a; b]) = (pt a + pt a)%G.
Proof. exact (fun E => two_representations (E := E)). Qed.
Print Assumptions C13_two_representations_counted_twice.

(** C14 *)
Theorem C14_cached_decode_transparent : forall (E : cenv) (h : list (cop E)) d,
  snd (cache_deserialize (crun h) d) = fresh_decode d.
Proof. exact (fun E => deserialize_any_history (E := E)). Qed.
Print Assumptions C14_cached_decode_transparent.

Theorem C14_failures_leave_no_trace : forall (E : cenv) (h : list (cop E)) d, decode (c := E) d = None ->
  fst (cache_deserialize (crun h) d) = crun h /\ ~ In d (map fst (de (crun h))).
Proof. exact (fun E => failure_not_cached (E := E)). Qed.
Print Assumptions C14_failures_leave_no_trace.

(** C15 *)
Theorem C15_capacity_and_uniqueness : forall (E : cenv) (h : list (cop E)),
  (length (de (crun h)) <= 512)%nat /\ NoDup (map fst (de (crun h))).
Proof. exact (fun E => de_capacity (E := E)). Qed.
Print Assumptions C15_capacity_and_uniqueness.

Theorem C15_holds_most_recently_used : forall (E : cenv) (h : list (cop E)),
  map fst (de (crun h)) = firstn 512 (firsts (recent h [])).
Proof. exact (fun E => de_keys_spec (E := E)). Qed.
Print Assumptions C15_holds_most_recently_used.

(** C16 *)
Theorem C16_every_call_as_if_alone : forall (E : cenv) (progs : list (list (fcall E))) sched i f out,
  Forall (Forall fair_call) progs -> In (i, f, out) (trace (srun true progs sched)) -> alone f out.
Proof. exact (fun E => every_call_as_if_alone (E := E)). Qed.
Print Assumptions C16_every_call_as_if_alone.

Theorem C16_no_call_lost : forall (E : cenv) (progs : list (list (fcall E))) sched i t,
  nth_error (threads (srun true progs sched)) i = Some t ->
  nth_error progs i = Some (calls_of i (trace (srun true progs sched)) ++ pending t).
Proof. exact (fun E => program_order (E := E) true). Qed.
Print Assumptions C16_no_call_lost.

Theorem C16_no_deadlock : forall (E : cenv) (progs : list (list (fcall E))) sched i t,
  Forall (Forall fair_call) progs ->
  nth_error (threads (srun true progs sched)) i = Some t -> (prog t <> [] \/ ph t <> Idle) ->
  exists j s', sstep true (srun true progs sched) j = Some s'.
Proof. exact (fun E => progress (E := E)). Qed.
Print Assumptions C16_no_deadlock.
