(** Vocabulary for C77: assignments of the epoch circuit, and what they contain. *)
From Verif Require Import Base Constants Group Field Curve PointModel HashGadgetModel EncodingModel CodecSpec Circuit EpochSpec.

(** The value of one witness, and [satisfies c w x]: the values [w], in the order in which [c] allocates its witnesses, satisfy every
    constraint and make the output [x]. *)
Definition cell : Type := {T : Type & T}.
Definition the {T : Type} (v : T) : cell := existT (fun T => T) T v.
Fixpoint satisfies {A} (c : circ A) (w : list cell) (x : A) : Prop :=
  match c with
  | Ret a => w = [] /\ a = x
  | Witness _ k => exists v w', w = the v :: w' /\ satisfies (k v) w' x
  | Enforce b k => b = true /\ satisfies k w x
  | Stop _ => False
  end.

(** An accepted proof gives an assignment: [extract] is the extractor of the proof system. *)
Definition extractable {proof} (accepts : proof -> list Z -> Prop) (c : circ (list fq)) (extract : proof -> list Z -> list cell) : Prop :=
  forall q inputs, accepts q inputs -> exists xs, inputs = map fqv xs /\ satisfies c (extract q inputs) xs.

(** The assignment contains the affine coordinates of the point. *)
Definition contains_g1 {E1 : grp} (of1 : apoint fq -> E1) (w : list cell) (s : E1) : Prop :=
  exists Q, on_g1 Q = true /\ s = of1 Q /\ In (the (match Q with Some (x, y) => (x, y, q1) | None => (q0, q1, q0) end)) w.
Definition contains_g2 {E2 : grp} (of2 : apoint fq2 -> E2) (w : list cell) (k : E2) : Prop :=
  exists Q, on_twist Q = true /\ k = of2 Q /\ In (the (match Q with Some (x, y) => (x, y, q2_1) | None => (q2_0, q2_1, q2_0) end)) w.
(** It contains every value of the header. *)
Definition contains_header {E2 : grp} (of2 : apoint fq2 -> E2) (w : list cell) (h : header E2) : Prop :=
  Forall (fun v => In (the v) w) [h_index h; h_round h; h_max h; h_entropy h; h_parent h] /\ Forall (contains_g2 of2 w) (map fst (h_keys h)).
