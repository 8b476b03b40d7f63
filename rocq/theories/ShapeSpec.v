(** Vocabulary for C63: constraint systems without the values that a prover assigns. *)
From Verif Require Import Base Circuit EpochCircuitModel.

(** The same allocations and, as functions of the assigned values, the same constraints and outputs in the same
    order.  The two programs may differ only in the values that their own closures assign. *)
Inductive same {A} : circ A -> circ A -> Prop :=
| same_ret a : same (Ret a) (Ret a)
| same_witness T (h h' : synth T) k k' : (forall v, same (k v) (k' v)) -> same (Witness h k) (Witness h' k')
| same_enforce b k k' : same k k' -> same (Enforce b k) (Enforce b k')
| same_stop er : same (Stop er) (Stop er).

(** One pass through a program under some assignment: the sequence of its allocations and constraints (satisfied or
    not) and how it ends. *)
Inductive gate := Alloc (T : Type) | Check.
Fixpoint pass {A} (c : circ A) (gates : list gate) (out : synth A) : Prop :=
  match c with
  | Ret a => gates = [] /\ out = Val a
  | @Witness _ T _ k => exists l v, gates = Alloc T :: l /\ pass (k v) l out
  | Enforce _ k => exists l, gates = Check :: l /\ pass k l out
  | Stop er => gates = [] /\ out = match er with Fails er => Fails er | _ => Panics end
  end.
Definition ends_alike {A} (R : A -> A -> Prop) (x y : synth A) : Prop :=
  match x, y with Val a, Val b => R a b | Fails er, Fails er' => er = er' | Panics, Panics => True | _, _ => False end.
(** every pass of [c] and every pass of [c'] have the same sequence *)
Definition same_layout {A} (R : A -> A -> Prop) (c c' : circ A) : Prop :=
  forall l l' x x', pass c l x -> pass c' l' x' -> l = l' /\ ends_alike R x x'.

(** What of an instance is not a value: how many keys, bits and epochs, and whether the expansion of the hashes is
    left to a helper proof. *)
Record dimensions := mk_dims { dim_initial : nat; dim_validators : Z; dim_epochs : list (nat * nat); dim_helper : bool }.
Definition dims {S K H} (w : validator_set_update S K H) : dimensions :=
  mk_dims (length (ed_keys (vsu_initial w))) (vsu_num_validators w)
    (map (fun u => (length (ed_keys (su_data u)), length (su_bitmap u))) (vsu_epochs w))
    (match vsu_helper w with Some _ => true | None => false end).

(** a hash that is defined or not depending on the length of its message only *)
Definition by_length {A} (f : bytes -> option A) : Prop :=
  forall m m', length m = length m' -> (f m = None <-> f m' = None).
