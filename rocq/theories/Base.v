(** Common data types of the model. *)
From Coq Require Export ZArith List Bool Lia.
Export ListNotations.
Open Scope Z_scope.

(** Bytes are integers in [0,256); byte strings are lists of them. *)
Definition byte := Z.
Definition bytes := list byte.
Definition is_byte (b : Z) : bool := (0 <=? b) && (b <? 256).
Definition is_bytes (l : bytes) : bool := forallb is_byte l.

(** crates/bls-crypto/src/lib.rs lines 85-113: [enum BLSError].  The payloads of IoError,
    HashingError and SerializationError are foreign error objects and are dropped. *)
Inductive bls_error :=
| VerificationFailed
| IoError
| HashingError
| DomainTooLarge (n : Z)
| HashToCurveError
| UnevenNumKeysMessages
| SerializationError.

(** [Result<A, BLSError>], with a Rust panic (failed assert, unwrap of None, arithmetic overflow in
    a checked build) as a third outcome. *)
Inductive result (A : Type) :=
| Ok (a : A)
| Err (e : bls_error)
| Panic.
Arguments Ok {A} a.
Arguments Err {A} e.
Arguments Panic {A}.

Definition rbind {A B} (m : result A) (f : A -> result B) : result B :=
  match m with Ok a => f a | Err e => Err e | Panic => Panic end.

Definition is_ok {A} (x : result A) : bool := match x with Ok _ => true | _ => false end.

(** crates/bls-crypto/src/lib.rs lines 74-81: the three domains, as ASCII codes. *)
Definition SIG_DOMAIN : bytes := [85; 76; 102; 111; 114; 120; 111; 102].   (* b"ULforxof" *)
Definition POP_DOMAIN : bytes := [85; 76; 102; 111; 114; 112; 111; 112].   (* b"ULforpop" *)
Definition OUT_DOMAIN : bytes := [85; 76; 102; 111; 114; 111; 117; 116].   (* b"ULforout" *)

(** [for], [map(..).collect::<Result<Vec<_>,_>>()]: left to right, stops at the first failure. *)
Fixpoint mapM {A B} (f : A -> result B) (l : list A) : result (list B) :=
  match l with
  | [] => Ok []
  | x :: l' => rbind (f x) (fun y => rbind (mapM f l') (fun ys => Ok (y :: ys)))
  end.

(** usize is 64 bits wide on the supported targets. *)
Definition usize_max : Z := 2 ^ 64 - 1.
