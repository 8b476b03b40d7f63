(** C63: concrete cases, with the groups and blocks of EpochExamples.v and keys that are the circuit instances
    themselves. *)
From Verif Require Import Base Constants Group Field Curve BitsModel EncodingModel EncodingSpec Blake2 HasherModel PointModel HashCurveModel HashCurveSpec HashCurveProofs
  Circuit CircuitFacts GadgetModel GadgetSpec HashGadgetModel HashGadgetExamples EpochCircuitModel EpochSpec EpochCircuitSpec EpochProofs ProverModel ProverSpec ProverProofs
  HelperModel HelperProofs EpochExamples HelperExamples FfiModel FfiSpec LightSpec LightExamples PropProver SetupModel ShapeSpec ShapeProofs SetupProofs PropSetup.

Definition messages : Type := list (list (option bool)).
Definition instance5 : Type := validator_set_update z5_grp z5_grp (unit * messages).
Definition generate_h (c : messages) (rng : nat) : synth (messages * nat) := Val (c, S rng).
Definition generate_e (c : instance5) (rng : nat) : synth (instance5 * nat) := Val (c, S rng).
Notation circuit63 pin := (generate_constraints e5 gen gen of1 of2 to1 to2 fq_sqrt ped_one true pin false (fun _ _ => true)).
Definition sized5 (t : transition z5_grp z5_grp) : Prop := length (eb_keys (t_block t)) = 3%nat /\ length (t_bitmap t) = 3%nat.
Lemma sized_ts5 : Forall sized5 ts5. Proof. repeat constructor. Qed.
Lemma ped_one_by_length : by_length ped_one.
Proof. intros m m' _. unfold ped_one. split; intros X; discriminate X. Qed.

(** [setup] for three validators and two or three epochs, and [prove] for the chain of two transitions *)
Example ex_C63_setup : forall pin k flag, (k = 2 \/ k = 3)%nat -> exists q (w : instance5),
  trusted_setup (fun s : messages => s) tt generate_h generate_e 3 k 1 0%nat flag = Val (q, if flag then 2%nat else 1%nat) /\
  prove gen gen (helper_of (fun s : messages => s) (fun _ _ => Ok tt) q) 3 (b5 1 keys5) ts5 k = Ok w /\ length (vsu_epochs w) = k /\
  same (circuit63 pin (p_epochs q)) (circuit63 pin w).
Proof.
  intros pin k flag K. unfold trusted_setup, setup, generate_h, generate_e. 
  assert (X : forall helper : option (list (transition z5_grp z5_grp) -> result (unit * messages)), (forall f, helper = Some f -> exists h, f ts5 = Ok h) ->
    exists w, prove gen gen helper 3 (b5 1 keys5) ts5 k = Ok w /\ length (vsu_epochs w) = k).
  { intros helper HH. destruct (C46_complete z5_grp z5_grp z5_grp e5 gen gen of1 of2 to1 to2 fq_sqrt ped_one true true false (unit * messages) (fun _ _ => true) 3 (b5 1 keys5) [t6 9 n2 [true; false; true]] (t7 n2) k helper
      fq_sqrt_ok eq_refl of1_neg gen_nz ltac:(vm_compute; reflexivity) (e5_linear gen) signatures_good (good5 1 n2 n3 n4 ltac:(lia)) chain5 sum7 ltac:(cbn; lia) (fun _ => padding6 9)
      ltac:(destruct helper as [f|]; [exact (HH f eq_refl)|exact I])) as (w & i & P & L & _). exists w. auto. }
  destruct flag.
  - destruct (X (helper_of (fun s : messages => s) (fun _ _ => Ok tt) (mk_parameters (validator_set_update_empty tt 3 k 1 (Some (hash_to_bits_empty k)) : instance5) (Some (hash_to_bits_empty k)))
        : option (list (transition z5_grp z5_grp) -> result (unit * messages)))) as (w & P & L).
    { intros f E. apply (LightProofs.some_inj) in E. subst f. eexists. reflexivity. }
    eexists. exists w. split; [reflexivity|]. split; [exact P|]. split; [exact L|].
    destruct (C63_setup z5_grp z5_grp z5_grp e5 gen gen of1 of2 to1 to2 fq_sqrt ped_one true pin false unit messages instance5 messages nat (fun s => s) tt (fun _ _ => true) 3 k 1 0%nat generate_h generate_e true
      _ 2%nat (fun _ _ => Ok tt) (b5 1 keys5) ts5 w ltac:(reflexivity) eq_refl eq_refl sized_ts5 P) as (w0 & r0 & E & SM & _). injection E as -> _. exact SM.
  - destruct (X None) as (w & P & L); [intros f E; discriminate E|].
    eexists. exists w. split; [reflexivity|]. split; [exact P|]. split; [exact L|].
    destruct (C63_setup z5_grp z5_grp z5_grp e5 gen gen of1 of2 to1 to2 fq_sqrt ped_one true pin false unit messages instance5 messages nat (fun s => s) tt (fun _ _ => true) 3 k 1 0%nat generate_h generate_e false
      _ 1%nat (fun _ _ => Ok tt) (b5 1 keys5) ts5 w ltac:(reflexivity) eq_refl eq_refl sized_ts5 P) as (w0 & r0 & E & SM & _). injection E as -> _. exact SM.
Qed.
(** the helper instance of this chain fits a helper key for two epochs and none for three *)
Example ex_C63_helper : exists shape, helper_messages gen (coords_of to2) (native_ped ped_one) ts5 = Ok shape /\
  same (hash_to_bits_circuit (hash_to_bits_empty 2)) (hash_to_bits_circuit shape) /\ ~ same (hash_to_bits_circuit (hash_to_bits_empty 3)) (hash_to_bits_circuit shape).
Proof.
  destruct messages5 as (shape & M). exists shape. split; [exact M|].
  split; [apply (C63_helper_fits z5_grp z5_grp gen (coords_of to2) (native_ped ped_one) ts5 shape 2 ped_48 M); reflexivity|].
  intros X. apply (C63_helper_fits z5_grp z5_grp gen (coords_of to2) (native_ped ped_one) ts5 shape 3 ped_48 M) in X. discriminate X.
Qed.

(** the prover makes a pass *)
Lemma prover_pass {A} (c : circ A) x s : prover c = Val (x, s) -> exists l, pass c l (Val x).
Proof.
  revert s. induction c as [a|T h k IH|b k IH|er]; intros s; cbn [prover pass].
  - intros X. injection X as -> _. eauto.
  - destruct h as [v|er|]; try (intros X; discriminate X). intros X. destruct (IH v s X) as (l & Y). eauto.
  - destruct (prover k) as [[y s']|er|] eqn:E; cbn [smap]; intros X; try discriminate X. injection X as -> _. destruct (IH s' eq_refl) as (l & Y). eauto.
  - destruct er as [[]|er|]; intros X; discriminate X.
Qed.
Example ex_C63_more_epochs : exists (w w' : instance5) l l' x x', sizes 3 w /\ sizes 3 w' /\ dim_helper (dims w) = dim_helper (dims w') /\
  pass (circuit63 true w) l (Val x) /\ pass (circuit63 true w') l' (Val x') /\ length (vsu_epochs w) = 2%nat /\ length (vsu_epochs w') = 4%nat /\ (length l < length l')%nat /\ dims w <> dims w'.
Proof.
  assert (X : forall k, (2 <= k)%nat -> exists w : instance5, sizes 3 w /\ vsu_helper w = None /\ length (vsu_epochs w) = k /\ exists l x, pass (circuit63 true w) l (Val x)).
  { intros k K. destruct (C46_complete z5_grp z5_grp z5_grp e5 gen gen of1 of2 to1 to2 fq_sqrt ped_one true true false (unit * messages) (fun _ _ => true) 3 (b5 1 keys5) [t6 9 n2 [true; false; true]] (t7 n2) k None
      fq_sqrt_ok eq_refl of1_neg gen_nz ltac:(vm_compute; reflexivity) (e5_linear gen) signatures_good (good5 1 n2 n3 n4 ltac:(lia)) chain5 sum7 ltac:(cbn; lia) (fun _ => padding6 9) I) as (w & i & P & L & R & _).
    destruct (dims_prove gen gen None 3 (b5 1 keys5) ts5 k w eq_refl sized_ts5 P) as [D _].
    exists w. split; [apply (dims_sizes 3 k false w ltac:(vm_compute; reflexivity) ltac:(lia) D)|]. split; [exact (proj2 (dims_prove gen gen None 3 (b5 1 keys5) ts5 k w eq_refl sized_ts5 P))|]. split; [exact L|].
    apply prover_pass in R as (l & R). eauto. }
  destruct (X 2%nat ltac:(lia)) as (w & S & N & L & l & x & R). destruct (X 4%nat ltac:(lia)) as (w' & S' & N' & L' & l' & x' & R').
  exists w, w', l, l', x, x'. assert (D : dim_helper (dims w) = dim_helper (dims w')) by (cbn [dims dim_helper]; rewrite N, N'; reflexivity).
  repeat (split; [assumption|]). split.
  - apply (C63_more_epochs z5_grp z5_grp z5_grp e5 gen gen of1 of2 to1 to2 fq_sqrt ped_one true true false unit messages (fun _ _ => true) 3 w w' l l' x x' ped_one_by_length S S' D R R'). lia.
  - intros E. apply (f_equal dim_epochs) in E. apply (f_equal (@length _)) in E. cbn [dims dim_epochs] in E. rewrite !map_length, L, L' in E. discriminate E.
Qed.

(** An accepted call under a key of [setup].  Key generation answers for circuits of three validators and two epochs
    without helper only; the proof system accepts one list of inputs, which they satisfy. *)
Definition dims_dec (a b : dimensions) : {a = b} + {a <> b}.
Proof. decide equality; [apply Bool.bool_dec|apply list_eq_dec; intros [x y] [x' y']; decide equality; apply Nat.eq_dec|apply Z.eq_dec|apply Nat.eq_dec]. Defined.
Definition dims32 : dimensions := mk_dims 3 3 [(3, 3); (3, 3)]%nat false.
Definition generate_32 (c : instance5) (rng : nat) : synth (unit * nat) := if dims_dec (dims c) dims32 then Val (tt, S rng) else Fails Unsatisfiable.
Example ex_C63_certifies : exists inputs,
  (forall w0 r0 key r1, generate_32 w0 r0 = Val (key, r1) -> sound_for (fun pr given => accept_only (map fqv inputs) key pr given = Ok true) (holds (circuit63 true w0))) /\
  trusted_setup (fun s : messages => s) tt generate_h generate_32 3 2 1 0%nat false = Val (mk_parameters tt None, 1%nat) /\
  ffi_verify fq2_sqrt (fun _ => true) (fun _ => Ok tt) (fun _ => Ok tt) (accept_only (map fqv inputs)) blake2_out [] [] (as_c (points (b5 1 keys5))) (as_c (points b7)) = Returns true None.
Proof.
  destruct ex_C62 as (w & i & SZ & NH & L & SD & _ & _ & V). exists i. split; [|split; [reflexivity|exact V]].
  intros w0 r0 key r1 G pr given A. unfold generate_32 in G. destruct (dims_dec (dims w0) dims32) as [D|]; [|discriminate G]. destruct key.
  destruct (SD pr given A) as (xs & E & H). exists xs. split; [exact E|].
  (* the instance of ex_C62 has another type of helper proofs *)
  destruct SZ as (N1 & _ & _ & N2 & N3).
  set (w1 := mk_vsu (vsu_initial w) (vsu_num_validators w) (vsu_epochs w) (vsu_signature w) None : instance5).
  assert (D1 : dims w1 = dims32).
  { unfold dims, w1, dims32. cbn [vsu_initial vsu_num_validators vsu_epochs vsu_helper]. rewrite N1, N2. f_equal. destruct (vsu_epochs w) as [|u [|u' [|]]]; try discriminate L.
    inversion N3 as [|? ? [A1 A2] F']; subst. inversion F' as [|? ? [B1 B2] _]; subst. cbn [map]. rewrite A1, A2, B1, B2. reflexivity. }
  apply (C63_same_statement z5_grp z5_grp z5_grp e5 gen gen of1 of2 to1 to2 fq_sqrt ped_one true true false unit messages (fun _ _ => true) w0 w1 xs); [congruence|].
  assert (W1 : circuit63 true w1 = circuit5 true w); [|rewrite W1; exact H].
  unfold generate_constraints, enforce_epochs, verify_intermediate_epochs, verify_signature, w1. cbn [vsu_initial vsu_num_validators vsu_epochs vsu_helper vsu_signature]. rewrite NH. reflexivity.
Qed.
