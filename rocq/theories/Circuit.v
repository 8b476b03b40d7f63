(** Rank-1 constraint systems, as programs that allocate witnesses and enforce constraints.

    A program denotes two things.  [holds c a]: some assignment of the witnesses satisfies every
    constraint and makes the output [a] (what a verifier learns from a proof, whoever made it).
    [prover c]: what happens when the repository's own witness-generation closures supply the
    assignment, i.e. the output together with whether all constraints are satisfied.
    A variable is represented by its value under the assignment. *)
From Verif Require Import Base Field Curve.

Inductive synthesis_error := MissingCS | AssignmentMissing | Unsatisfiable.
Inductive synth (A : Type) := Val (a : A) | Fails (e : synthesis_error) | Panics.
Arguments Val {A} a. Arguments Fails {A} e. Arguments Panics {A}.
Definition smap {A B} (f : A -> B) (x : synth A) : synth B :=
  match x with Val a => Val (f a) | Fails e => Fails e | Panics => Panics end.

Inductive circ (A : Type) : Type :=
| Ret (a : A)
| Witness (T : Type) (closure : synth T) (k : T -> circ A)
| Enforce (c : bool) (k : circ A)
| Stop (e : synth False).
Arguments Ret {A} a. Arguments Witness {A T} closure k. Arguments Enforce {A} c k. Arguments Stop {A} e.

Fixpoint holds {A} (c : circ A) (x : A) : Prop :=
  match c with
  | Ret a => a = x
  | Witness _ k => exists v, holds (k v) x
  | Enforce b k => b = true /\ holds k x
  | Stop _ => False
  end.
(** Every constraint is generated whether or not the previous ones are satisfied. *)
Fixpoint prover {A} (c : circ A) : synth (A * bool) :=
  match c with
  | Ret a => Val (a, true)
  | Witness h k => match h with Val v => prover (k v) | Fails e => Fails e | Panics => Panics end
  | Enforce b k => smap (fun '(a, s) => (a, b && s)) (prover k)
  | Stop (Fails e) => Fails e
  | Stop _ => Panics
  end.

Fixpoint cbind {A B} (c : circ A) (f : A -> circ B) : circ B :=
  match c with
  | Ret a => f a
  | Witness h k => Witness h (fun v => cbind (k v) f)
  | Enforce b k => Enforce b (cbind k f)
  | Stop e => Stop e
  end.
Declare Scope circ_scope.
Delimit Scope circ_scope with circ.
Notation "x <- c ;; k" := (cbind c (fun x => k)) (at level 60, c at next level, right associativity) : circ_scope.
Notation "' p <- c ;; k" := (cbind c (fun p => k)) (at level 60, p pattern, c at next level, right associativity) : circ_scope.
Notation "c ;;; k" := (cbind c (fun _ => k)) (at level 60, right associativity) : circ_scope.

Definition enforce (b : bool) : circ unit := Enforce b (Ret tt).
Definition witness {T} (h : synth T) : circ T := Witness h Ret.
Definition fails {A} (e : synthesis_error) : circ A := Stop (Fails e).
Definition panics {A} : circ A := Stop Panics.
Fixpoint cmap {A B} (f : A -> circ B) (l : list A) : circ (list B) :=
  match l with [] => Ret [] | a :: l' => (b <- f a ;; bs <- cmap f l' ;; Ret (b :: bs))%circ end.
Fixpoint ceach {A} (f : A -> circ unit) (l : list A) : circ unit :=
  match l with [] => Ret tt | a :: l' => (f a ;;; ceach f l')%circ end.

(** ark-r1cs-std [AllocatedBit::new_variable]: (1 - a) * a = 0 *)
Definition bfq (b : bool) : fq := if b then q1 else q0.
Definition new_bool (h : synth bool) : circ bool :=
  Witness (smap bfq h) (fun v => Enforce (qeqb (qmul (qsub q1 v) v) q0) (Ret (qeqb v q1))).

(** ark-r1cs-std [FpVar] *)
Inductive fpvar := Constant (v : fq) | Var (v : fq).
Definition value (x : fpvar) : fq := match x with Constant v | Var v => v end.
(** [to_bits_le]: the 377 bits of the canonical representative (uniqueness is enforced) *)
Definition to_bits_le (x : fq) : list bool := map (fun i => Z.testbit (fqv x) (Z.of_nat i)) (seq 0 377).
Definition to_bits_be (x : fq) : list bool := rev (to_bits_le x).
(** [enforce_smaller_or_equal_than_mod_minus_one_div_two] *)
Definition enforce_le_half (x : fq) : circ unit := enforce (fqv x <=? half).
(** [enforce_cmp(other, Less, should_also_check_equality = true)]: both [self] and [other + 1] at most
    (p-1)/2 and the lowest bit of 2 * (self - (other + 1)) set *)
Definition enforce_cmp_le (x y : fq) : circ unit :=
  let right := qadd y q1 in
  (enforce_le_half x ;;; enforce_le_half right ;;;
   let d := qsub x right in enforce (Z.testbit (fqv (qadd d d)) 0))%circ.
