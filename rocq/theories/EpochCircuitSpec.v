(** Instances of the epoch circuit with consistent sizes, and the readings of headers and signatures that the
    statement of the circuit is given for. *)
From Verif Require Import Base Constants Group Field Curve HasherModel PointModel HashGadgetModel HashGadgetSpec CodecSpec EpochCircuitModel EpochSpec.

Section Sizes.
  Context {E1 E2 : grp} {HP : Type}.
  Definition shape (n : nat) (u : single_update E2) : Prop := length (ed_keys (su_data u)) = n /\ length (su_bitmap u) = n.
  (** [n] validators everywhere, at least one update *)
  Definition sizes (n : nat) (w : validator_set_update E1 E2 HP) : Prop :=
    vsu_num_validators w = Z.of_nat n /\ Z.of_nat n < p /\ vsu_epochs w <> [] /\
    length (ed_keys (vsu_initial w)) = n /\ Forall (shape n) (vsu_epochs w).
  (** hashes are computed in the circuit if there is no helper proof *)
  Definition constrained (w : validator_set_update E1 E2 HP) : bool := match vsu_helper w with None => true | Some _ => false end.
  Context (of1 : apoint fq -> E1) (ped : bytes -> option fq) (compat : bool).
  Definition hashes_in (constrain : bool) : header E2 -> E1 -> Prop :=
    if constrain then hashes_to of1 (native_ped ped) compat else hashes_freely of1 (native_ped ped) compat.
  Definition on_g1_point (s : E1) : Prop := exists Q, on_g1 Q = true /\ s = of1 Q.
End Sizes.
