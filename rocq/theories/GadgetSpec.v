(** What the BLS gadgets should establish, in the words of the native protocol. *)
From Verif Require Import Base Constants Group Field Curve.

(** [y] is lexicographically larger than [-y] (c1 before c0 in F_p2): the sign bit of a compressed point. *)
Definition larger1 (y : fq) : Prop := fqv (qopp y) < fqv y.
Definition larger2 (y : fq2) : Prop :=
  fqv (snd (q2opp y)) < fqv (snd y) \/ (fqv (snd (q2opp y)) = fqv (snd y) /\ fqv (fst (q2opp y)) < fqv (fst y)).
(** The field elements on which one of the sign tests is not determined by its constraints. *)
Definition midpoint (a : fq) : Prop := fqv a = half.

(** How many positions of a bitmap carry [v]. *)
Definition positions (v : bool) (bitmap : list bool) : Z := Z.of_nat (count_occ bool_dec bitmap v).

(** The keys whose position is flagged. *)
Inductive signers {K : Type} : list K -> list bool -> list K -> Prop :=
| signers_nil : signers [] [] []
| signers_yes k ks bs l : signers ks bs l -> signers (k :: ks) (true :: bs) (k :: l)
| signers_no k ks bs l : signers ks bs l -> signers (k :: ks) (false :: bs) l.
(** Sum of a list of group elements. *)
Definition sum {G : grp} (l : list G) : G := fold_right ga gz l.
