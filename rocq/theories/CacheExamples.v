(** Non-vacuity for PropCache.v: integer coordinates, points in Z/r, a colliding hash function. *)
From Coq Require Import Permutation.
From Verif Require Import Base Constants Group Instances CacheModel CacheSpec CacheProofs.

Definition toyE : cenv := {|
  F := Z; feqb := Z.eqb; feqb_spec := Z.eqb_eq; fhash := fun y => y mod 2;
  PG := zr_grp; pt := fun j => zr_mk (jx j + jy j) : zr_grp;
  decode := fun d => match d with [] => None | b :: _ => Some (Jac b (b + 1) 1) end |}.
Definition K (x y z : Z) : jac (F toyE) := @Jac Z x y z.
Definition fwd : order toyE := fun l => l.
Definition bwd : order toyE := fun l => rev l.
Lemma fair_fwd : fair fwd. Proof. intros l. apply Permutation_refl. Qed.
Lemma fair_bwd : fair bwd. Proof. intros l. symmetry. apply Permutation_rev. Qed.

Definition toy_history : list (cop toyE) :=
  [OpAggregate fwd bwd [K 1 2 1; K 3 4 1; K 1 2 1]; OpDeserialize [5]; OpDeserialize [];
   OpAggregate bwd fwd [K 3 4 1; K 7 8 1]; OpDeserialize [6; 6]; OpDeserialize [5]].
Example ex_C12 : Forall fair_op toy_history /\
  zr_val (snd (cache_aggregate fwd bwd (crun toy_history) [K 7 8 1; K 9 9 1; K 7 8 1])) = 33.
Proof. split; [repeat constructor; try apply fair_fwd; apply fair_bwd|vm_compute; reflexivity]. Qed.

(** Repeating a key changes the plain aggregate but not the cached one. *)
Example ex_C13 : zr_val (plain_aggregate ([K 1 2 1] ++ [K 1 2 1])) = 6 /\
  zr_val (snd (cache_aggregate fwd bwd (crun toy_history) ([K 1 2 1] ++ [K 1 2 1]))) = 3.
Proof. vm_compute. split; reflexivity. Qed.
Example ex_C13_representations : K 1 2 1 <> K 1 2 5 /\ pt (K 1 2 1) = pt (K 1 2 5) /\
  zr_val (snd (cache_aggregate fwd bwd (crun toy_history) [K 1 2 1; K 1 2 5])) = 6.
Proof. split; [intros H; discriminate H|]. split; [reflexivity|vm_compute; reflexivity]. Qed.

Example ex_C14 : decode (c := toyE) [] = None /\
  snd (cache_deserialize (crun toy_history) [6; 6]) = Ok (K 6 7 1) /\
  snd (cache_deserialize (crun toy_history) []) = Err SerializationError.
Proof. repeat split. Qed.
Example ex_C15 : map fst (de (crun toy_history)) = [[5]; [6; 6]].
Proof. reflexivity. Qed.
(** The capacity is reached: 600 distinct byte strings leave 512 entries, the newest first. *)
Example ex_C15_full :
  let h := map (fun n => OpDeserialize [Z.of_nat n]) (seq 0 600) : list (cop toyE) in
  length (de (crun h)) = 512%nat /\ hd_error (map fst (de (crun h))) = Some [599].
Proof. vm_compute. split; reflexivity. Qed.

Definition toy_progs : list (list (fcall toyE)) :=
  [[FAggregate fwd bwd [K 1 2 1]; FDeserialize [5]]; [FSubtract bwd fwd (K 10 10 1) [K 3 4 1]]].
Example ex_C16 : Forall (Forall fair_call) toy_progs /\
  map (fun ev => fst (fst ev)) (trace (srun true toy_progs [0;1;0;1;0;0;1;0;1;1;0;0;1;1;0;0;0;0]%nat)) = [0; 1; 0]%nat.
Proof. split; [repeat constructor; try apply fair_fwd; apply fair_bwd|vm_compute; reflexivity]. Qed.

(** Without the mutex the same programs can return a wrong aggregate. *)
Theorem C16_without_lock_refuted :
  exists (E : cenv) (progs : list (list (fcall E))) sched i f out,
    Forall (Forall fair_call) progs /\ In (i, f, out) (trace (srun false progs sched)) /\ ~ alone f out.
Proof.
  exists toyE, [[FAggregate fwd fwd [K 1 2 1]]; [FAggregate fwd fwd [K 3 4 1]]], [0;1;0;1;1]%nat,
    1%nat, (FAggregate fwd fwd [K 3 4 1]), (OutPoint (zr_mk 4 : PG toyE)).
  split; [repeat constructor; apply fair_fwd|]. split.
  - left. f_equal. f_equal. apply zr_ext. vm_compute. reflexivity.
  - intros H. assert (H' : set_sum [K 3 4 1] (zr_mk 7 : PG toyE)).
    { exists [K 3 4 1]. split; [repeat constructor; intros []|]. split; [reflexivity|]. apply zr_ext. reflexivity. }
    pose proof (set_sum_unique _ _ _ H H') as X. apply (f_equal zr_val) in X. vm_compute in X. discriminate.
Qed.
Print Assumptions C16_without_lock_refuted.
