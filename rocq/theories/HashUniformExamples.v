(** C76: a hash function for every table, and the tables that hash a message to the generator. *)
From Verif Require Import Base Constants Group Field Curve BlsModel PointModel EncodingModel HasherModel HashCurveModel HashCurveSpec HashCurveProofs CurveGroups CurveOrder OrderSpec OrderProofs KeygenSpec KeygenProofs HashUniformSpec HashUniformProofs PropHashUniform.

(** The first byte of the input selects the answer; the inner hash is the message itself. *)
Definition table_hasher (ds : list bytes) : HasherModel.hasher := mk_hasher (fun _ m _ => Ok m) (fun _ m _ => Ok (nth (Z.to_nat (hd 0 m)) ds [])).
Example table_answers d m x : answers table_hasher d m x.
Proof. intros ds c _ _. unfold hash. cbn [table_hasher crh xof rbind app hd]. rewrite Nat2Z.id. reflexivity. Qed.
Example table_answers_cip22 d m x : answers_cip22 table_hasher d m x m.
Proof. intros ds c _ _. cbn [table_hasher crh xof app hd]. split; [reflexivity|]. rewrite Nat2Z.id. reflexivity. Qed.
Definition gives_gen (o : result g1_curve) : bool := match o with Ok P => geqb P g1_gen | _ => false end.
Lemma gives_gen_iff o : gives_gen o = true <-> o = Ok g1_gen.
Proof. destruct o as [P|e|]; cbn [gives_gen]; try (split; intros K; discriminate K). rewrite geqb_spec. split; [intros ->; reflexivity|congruence]. Qed.
Lemma gen_in : in_g1 (g1_to g1_gen) /\ g1_to g1_gen <> None.
Proof. split; [apply in_g1_iff; exact gen_order|]. intros K. apply gen_not_0. apply g1_to_inj. exact K. Qed.
Lemma tables_filter w n (F : list bytes -> bool) : exists L, lists_all (fun ds => table w n ds /\ F ds = true) L.
Proof. eexists. exact (lists_filter (table w n) F _ (all_tables w n)). Qed.
Example uniform_gen compat d m x : exists L, lists_all (fun ds => digests 255 ds /\ g1_hash compat (table_hasher ds) g1_curve g1_of G1_COFACTOR fq_sqrt d m x = Ok g1_gen) L /\
  Z.of_nat (length L) * (r - 1) = (2 ^ 512) ^ 255 - USELESS ^ 255.
Proof.
  destruct (tables_filter 64 255 (fun ds => gives_gen (g1_hash compat (table_hasher ds) g1_curve g1_of G1_COFACTOR fq_sqrt d m x))) as (L & HL).
  assert (HL' : lists_all (fun ds => digests 255 ds /\ g1_hash compat (table_hasher ds) g1_curve g1_of G1_COFACTOR fq_sqrt d m x = Ok g1_gen) L) by (refine (lists_ext _ _ L _ HL); intros ds; rewrite gives_gen_iff; reflexivity).
  exists L. split; [exact HL'|]. destruct gen_in as [I N]. exact (C76_uniform compat fq_sqrt fq_sqrt_ok table_hasher d m x g1_gen L (table_answers d m x) I N HL').
Qed.
(** More than two in five digests give a point, so the number of tables above is not zero. *)
Example two_in_five : 2 * 2 ^ 512 <= 5 * (PER_POINT * (r - 1)). Proof. apply Z.leb_le. vm_compute. reflexivity. Qed.
