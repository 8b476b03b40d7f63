(** The protocol a C client of the library follows, and what it is owed. *)
From Coq Require Import Permutation.
From Verif Require Import Base Group BlsModel CodecModel FfiModel MemoryModel.

(** What the client holds: a pointer to an object of a type, or a pointer to so many bytes. *)
Inductive handle := HBox (k : kind) (p : Z) | HVec (p n : Z).
Definition pointer (x : handle) : Z := match x with HBox _ p => p | HVec p _ => p end.
(** The allocation behind a handle; an empty vector has none. *)
Definition footprint (x : handle) : list (Z * layout) :=
  match x with HBox k p => [(p, LBox k)] | HVec p n => if n =? 0 then [] else [(p, LBytes n)] end.
Definition handles (ws : list written) : list handle :=
  flat_map (fun w => match w with WBox k p => [HBox k p] | WVec p n => [HVec p n] | WValue _ => [] end) ws.

(** The bytes fit the capacity, and their number fits a c_int. *)
Definition small (l : bytes) (cap : Z) : Prop := Z.of_nat (length l) <= cap /\ Z.of_nat (length l) < 2 ^ 31.

Section Protocol.
  Context {SK PK SG : Type}.
  Notation heap := (heap SK PK SG). Notation call := (call SK PK SG). Notation object := (object SK PK SG).
  (** An allocator never returns null or the address of a live allocation. *)
  Definition proper_allocator (address : heap -> layout -> Z) : Prop :=
    forall h l, address h l <> 0 /\ ~ In (address h l) (map fst h).
  Context (address : heap -> layout -> Z).

  (** The arguments of these types are what the call expects; its vectors are [small]. *)
  Definition accepts (c : call) (ks : list kind) : Prop :=
    forall os : list object, map kind_of os = ks -> exists x, c os = Some x.
  Definition fits (g : give SK PK SG * Z) : Prop :=
    match g with (GVec l, cap) => small l cap | _ => True end.
  Definition moderate (c : call) : Prop :=
    forall os b gs, c os = Some (Returns b (Some gs)) -> Forall fits gs.

  (** Nothing is stored when false is returned. *)
  Definition clean (c : call) : Prop := forall os o, c os = Some (Returns false o) -> o = None.
  Definition meets (c : call) (ks : list kind) : Prop := accepts c ks /\ moderate c /\ clean c.

  Inductive action := ACall (args : list (kind * Z)) (c : call) | ARelease (x : handle) | ANull (k : option kind) (n : Z).
  Definition perform (h : heap) (a : action) : outcome SK PK SG :=
    match a with
    | ACall args c => run_call address h (map snd args) c
    | ARelease (HBox k p) => run_destroy h k p
    | ARelease (HVec p n) => run_free_vec h p n
    | ANull (Some k) _ => run_destroy h k 0
    | ANull None n => run_free_vec h 0 n
    end.
  (** Arguments are handles held, of the types expected; only handles held are released. *)
  Definition allowed (held : list handle) (a : action) : Prop :=
    match a with
    | ACall args c => Forall (fun e => In (HBox (fst e) (snd e)) held) args /\ accepts c (map fst args) /\ moderate c
    | ARelease x => In x held
    | ANull _ _ => True
    end.
  Definition released (a : action) : list handle := match a with ARelease x => [x] | _ => [] end.
  Definition step (s : heap * list handle) (a : action) (b : bool) (s' : heap * list handle) : Prop :=
    allowed (snd s) a /\
    exists ws, perform (fst s) a = Done (fst s') b ws /\ Permutation (released a ++ snd s') (snd s ++ handles ws).
  Inductive session (h0 : heap) : heap * list handle -> Prop :=
  | session_start : session h0 (h0, [])
  | session_step : forall s a b s', session h0 s -> step s a b s' -> session h0 s'.

  (** [w] is how the output [g] looks from outside. *)
  Definition delivered (h : heap) (g : give SK PK SG) (w : written) : Prop :=
    match g, w with
    | GBox o, WBox k p => k = kind_of o /\ p <> 0 /\ lookup h p = Some (Block (LBox k) (Object o))
    | GVec l, WVec p n => n = Z.of_nat (length l) /\ p <> 0 /\ (l = [] \/ lookup h p = Some (Block (LBytes n) (Bytes l)))
    | GValue n, WValue n' => n' = n
    | _, _ => False
    end.
End Protocol.
Arguments action : clear implicits.
