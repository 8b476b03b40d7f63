(** C83: a hash function for all tables of three queries, the tables that give chosen points, and what goes wrong for inputs that are not different. *)
From Verif Require Import Base Constants Group Field Curve BlsModel PointModel EncodingModel HasherModel HashCurveModel HashCurveSpec HashCurveProofs PropHashCurve CurveGroups CurveOrder OrderSpec OrderProofs KeygenSpec KeygenProofs
  HashUniformSpec HashUniformProofs HashUniformExamples JointSpec JointProofs PropJoint.

(** A message signed without and with CIP 22, and a proof of possession: three different inputs. *)
Definition three : list query := [mk_query false SIG_DOMAIN [1; 2] [] [1; 2]; mk_query true SIG_DOMAIN [1; 2; 3] [9] [1; 2; 3]; mk_query false POP_DOMAIN [1; 2] [] [1; 2]].
Example three_different : NoDup (map input_of three).
Proof. repeat (constructor; [cbn; intros K; repeat (destruct K as [K|K]; [discriminate K|]); exact K|]). constructor. Qed.
Example three_answered : answers_all (tables_hasher three) three.
Proof. apply tables_answer; [exact three_different|]. repeat constructor. Qed.
(** The chosen points: the generator, its double and the generator again. *)
Definition chosen : list g1_curve := [g1_gen; ga g1_gen g1_gen; g1_gen].
Lemma order_in (P : g1_curve) : smul r P = gz -> P <> gz -> in_g1 (g1_to P) /\ g1_to P <> None.
Proof. intros O N. split; [apply in_g1_iff, O|]. intros K. apply N, g1_to_inj. exact K. Qed.
Lemma double_is {G : grp} (P : G) : ga P P = smul 2 P. Proof. symmetry. exact (smul_add 1 1 P). Qed.
Lemma double_gen : smul r (ga g1_gen g1_gen) = gz /\ ga g1_gen g1_gen <> gz.
Proof.
  rewrite double_is. split.
  - rewrite <- smul_mul, Z.mul_comm, smul_mul, gen_order. apply smul_gz.
  - intros K. apply (smul_eq_0_divide g1_gen 2 gen_order gen_not_0) in K. apply Z.divide_pos_le in K; [|reflexivity]. apply Z.leb_le in K. discriminate K.
Qed.
Lemma chosen_ok : Forall (fun P => in_g1 (g1_to P) /\ g1_to P <> None) chosen.
Proof. constructor; [exact gen_in|]. constructor; [exact (order_in _ (proj1 double_gen) (proj2 double_gen))|]. constructor; [exact gen_in|constructor]. Qed.
Example three_points compat : exists L, lists_all (fun Ts => tables 3 Ts /\ Forall2 (fun q P => query_hash compat fq_sqrt (tables_hasher three Ts) q = Ok P) three chosen) L /\
  Z.of_nat (length L) * (r - 1) ^ 3 = ((2 ^ 512) ^ 255 - USELESS ^ 255) ^ 3.
Proof.
  destruct exists_all_tables as (W & HW & _). pose proof (joint_list compat fq_sqrt W HW (tables_hasher three) three chosen three_answered eq_refl) as HL. eexists. split; [exact HL|].
  exact (C83_independent compat fq_sqrt fq_sqrt_ok (tables_hasher three) three chosen _ three_answered eq_refl chosen_ok HL).
Qed.
(** The tables are there: more than two in five digests give a point, so fewer than 3^255 in 5^255 of the tables give none. *)
Example tables_left : 0 < (2 ^ 512) ^ 255 - USELESS ^ 255.
Proof. apply Z.lt_0_sub, Z.pow_lt_mono_l; [reflexivity|]. split; [apply Z.leb_le; vm_compute; reflexivity|apply Z.ltb_lt; vm_compute; reflexivity]. Qed.
(** Extra data and message without a border between them (C27): no hash function answers the two queries independently. *)
Example same_input : ~ exists H, answers_all H [mk_query false SIG_DOMAIN [2; 3] [1] []; mk_query false SIG_DOMAIN [3] [1; 2] []].
Proof.
  intros (H & A). pose (t0 := repeat (repeat 0 64) 255). pose (t1 := repeat (repeat 1 64) 255).
  assert (D : forall b, is_bytes (repeat b 64) = true -> digests 255 (repeat (repeat b 64) 255)).
  { intros b B. split; [apply repeat_length|]. apply Forall_forall. intros d I. apply repeat_spec in I. subst d. split; [apply repeat_length|exact B]. }
  assert (T : tables 2 [t0; t1]) by (split; [reflexivity|constructor; [apply D; reflexivity|constructor; [apply D; reflexivity|constructor]]]).
  pose proof (A _ T) as AT. apply two_cons in AT as [A0 AT]. apply two_cons in AT as [A1 _]. specialize (A0 0%nat (Nat.lt_0_succ _)). specialize (A1 0%nat (Nat.lt_0_succ _)). cbn [q_cip22 q_domain q_extra q_message app] in A0, A1.
  pose proof (eq_trans (eq_sym A0) A1) as E. discriminate E.
Qed.
