(** The C interface from bytes to bytes, on the groups of BLS12-377.

    [sub G]: the elements of G that r kills, i.e. what [PublicKey] and [Signature] values that were read, generated, hashed
    or computed from such hold.  [e] is the pairing as a map on points. *)
From Coq Require Import Eqdep_dec.
From Verif Require Import Base Constants Group Field Curve BlsModel CacheModel PointModel EncodingModel HasherModel HashCurveModel CodecModel FfiModel
  CurveGroups CurveOrder TwistOrder OrderSpec OrderProofs TwistSpec TwistProofs RealSpec.

(** ** The subgroup of order r *)
Section Sub.
  Context (G : grp).
  Definition killed_by_r (P : G) : bool := geqb (smul r P) gz.
  Lemma killed_iff P : killed_by_r P = true <-> smul r P = gz. Proof. apply geqb_spec. Qed.
  Definition sub_car : Type := {P : G | killed_by_r P = true}.
  Lemma sub_ext (P Q : sub_car) : proj1_sig P = proj1_sig Q -> P = Q.
  Proof. destruct P as [P H], Q as [Q K]. cbn [proj1_sig]. intros <-. rewrite (UIP_dec Bool.bool_dec H K). reflexivity. Qed.
  Lemma sub_zero_ok : killed_by_r gz = true. Proof. apply killed_iff, smul_gz. Qed.
  Lemma sub_add_ok P Q : killed_by_r P = true -> killed_by_r Q = true -> killed_by_r (ga P Q) = true.
  Proof. rewrite !killed_iff. intros H K. rewrite smul_ga, H, K. apply ga_0_l. Qed.
  Lemma sub_neg_ok P : killed_by_r P = true -> killed_by_r (gn P) = true.
  Proof. rewrite !killed_iff. intros H. rewrite smul_gn, H. apply gn_0. Qed.
  Definition sub_zero : sub_car := exist _ gz sub_zero_ok.
  Definition sub_add (P Q : sub_car) : sub_car := exist _ (ga (proj1_sig P) (proj1_sig Q)) (sub_add_ok _ _ (proj2_sig P) (proj2_sig Q)).
  Definition sub_neg (P : sub_car) : sub_car := exist _ (gn (proj1_sig P)) (sub_neg_ok _ (proj2_sig P)).
  Definition sub_eqb (P Q : sub_car) : bool := geqb (proj1_sig P) (proj1_sig Q).
  Lemma sub_assoc P Q R : sub_add P (sub_add Q R) = sub_add (sub_add P Q) R. Proof. apply sub_ext, ga_assoc. Qed.
  Lemma sub_comm P Q : sub_add P Q = sub_add Q P. Proof. apply sub_ext, ga_comm. Qed.
  Lemma sub_0 P : sub_add sub_zero P = P. Proof. apply sub_ext, ga_0_l. Qed.
  Lemma sub_inv P : sub_add (sub_neg P) P = sub_zero. Proof. apply sub_ext, gn_l. Qed.
  Lemma sub_eqb_spec P Q : sub_eqb P Q = true <-> P = Q.
  Proof. unfold sub_eqb. rewrite geqb_spec. split; [apply sub_ext|intros ->; reflexivity]. Qed.
  Definition sub : grp := Grp sub_car sub_zero sub_add sub_neg sub_eqb sub_assoc sub_comm sub_0 sub_inv sub_eqb_spec.
  Definition sub_val (P : sub) : G := proj1_sig P.
  (** The element, if r kills it (zero otherwise, which does not occur). *)
  Definition sub_in (P : G) : sub := match bool_dec (killed_by_r P) true with left H => exist _ P H | right _ => sub_zero end.
  Lemma sub_val_in P : smul r P = gz -> sub_val (sub_in P) = P.
  Proof. intros H. unfold sub_in. destruct (bool_dec (killed_by_r P) true) as [K|K]; [reflexivity|]. destruct K. apply killed_iff, H. Qed.
  Lemma sub_val_killed P : smul r (sub_val P) = gz. Proof. apply killed_iff, (proj2_sig P). Qed.
  Lemma sub_in_val P : sub_in (sub_val P) = P. Proof. apply sub_ext, sub_val_in, sub_val_killed. Qed.
  Lemma sub_val_smul k P : sub_val (smul k P) = smul k (sub_val P).
  Proof.
    assert (A : forall n, sub_val (smul (Z.of_nat n) P) = smul (Z.of_nat n) (sub_val P)).
    { induction n as [|n IH]; [reflexivity|]. rewrite Nat2Z.inj_succ, !smul_succ, <- IH. reflexivity. }
    destruct (Z.le_ge_cases 0 k) as [H|H]; [rewrite <- (Z2Nat.id k H); apply A|].
    assert (E : k = - Z.of_nat (Z.to_nat (- k))) by (rewrite Z2Nat.id by (clear - H; lia); ring). rewrite E, !smul_opp, <- A. reflexivity.
  Qed.
  Lemma ord_k k (P : sub) : smul k (sub_val P) = gz -> smul k P = gz.
  Proof. intros H. apply sub_ext. rewrite <- sub_val_smul in H. exact H. Qed.
  Lemma ord_sub (P : sub) : smul r P = gz. Proof. apply ord_k, sub_val_killed. Qed.
End Sub.
Arguments sub_val {G}. Arguments sub_in {G}.

(** ** The pairing structure *)
Definition to1 (P : sub g1_curve) : g1_point := g1_to (sub_val P).
Definition to2 (P : sub g2_curve) : g2_point := g2_to (sub_val P).
Definition of1 (P : g1_point) : sub g1_curve := sub_in (g1_of P).
Definition of2 (P : g2_point) : sub g2_curve := sub_in (g2_of P).
Lemma to1_in P : in_g1 (to1 P). Proof. apply in_g1_iff, sub_val_killed. Qed.
Lemma to2_in P : in_g2 (to2 P). Proof. apply in_g2_iff, sub_val_killed. Qed.
Lemma cyclic_1 (P : sub g1_curve) : exists k, P = smul k (sub_in g1_gen).
Proof.
  pose proof (proj1 (CurveCount.g1_torsion _) (sub_val_killed g1_curve P)) as (k & _ & E). exists k. apply sub_ext. fold (sub_val (smul k (sub_in g1_gen))). rewrite sub_val_smul, (sub_val_in _ _ gen_order). exact E.
Qed.
Lemma cyclic_2 (P : sub g2_curve) : exists k, P = smul k (sub_in g2_gen).
Proof.
  pose proof (proj1 (TwistCount.g2_torsion _) (sub_val_killed g2_curve P)) as (k & _ & E). exists k. apply sub_ext. fold (sub_val (smul k (sub_in g2_gen))). rewrite sub_val_smul, (sub_val_in _ _ gen2_order). exact E.
Qed.
Section Real.
  Context (GT : grp) (e : g1_point -> g2_point -> GT) (L : bilinear e).
  Lemma real_add_l (P P' : sub g1_curve) (Q : sub g2_curve) : e (to1 (ga P P')) (to2 Q) = ga (e (to1 P) (to2 Q)) (e (to1 P') (to2 Q)).
  Proof. exact (proj1 L (to1 P) (to1 P') (to2 Q) (to1_in P) (to1_in P') (to2_in Q)). Qed.
  Lemma real_add_r (P : sub g1_curve) (Q Q' : sub g2_curve) : e (to1 P) (to2 (ga Q Q')) = ga (e (to1 P) (to2 Q)) (e (to1 P) (to2 Q')).
  Proof. exact (proj1 (proj2 L) (to1 P) (to2 Q) (to2 Q') (to1_in P) (to2_in Q) (to2_in Q')). Qed.
  Lemma real_nondeg : e (to1 (sub_in g1_gen)) (to2 (sub_in g2_gen)) <> gz.
  Proof. unfold to1, to2. rewrite (sub_val_in _ _ gen_order), (sub_val_in _ _ gen2_order), g1_to_gen, g2_to_gen. exact (proj2 (proj2 L)). Qed.
  Definition real_pairing : pairing :=
    Pairing (sub g1_curve) (sub g2_curve) GT (sub_in g1_gen) (sub_in g2_gen) (fun P Q => e (to1 P) (to2 Q)) real_add_l real_add_r cyclic_1 cyclic_2
      (ord_sub _ _) (ord_sub _ _) real_nondeg.

  (** The three hashes to G1: try_and_increment.rs lines 30-40, try_and_increment_cip22.rs lines 30-34. *)
  Context (compat : bool) (ped : bytes -> result bytes) (sqrt : fq -> option fq) (sqrt2 : fq2 -> option fq2).
  Definition to_hasher (h : bytes -> bytes -> bytes -> result g1_curve) : BlsModel.hasher real_pairing := fun d m x => rbind (h d m x) (fun P => Ok (sub_in P)).
  Definition direct_g1 : BlsModel.hasher real_pairing := to_hasher (g1_hash compat direct_hasher g1_curve g1_of G1_COFACTOR sqrt).
  Definition composite_g1 : BlsModel.hasher real_pairing := to_hasher (g1_hash compat (composite_hasher ped) g1_curve g1_of G1_COFACTOR sqrt).
  Definition cip22_g1 : BlsModel.hasher real_pairing := to_hasher (g1_hash_cip22 compat (composite_hasher ped) g1_curve g1_of G1_COFACTOR sqrt).

  (** Sequences of calls of the C interface; each stops at the first call that does not return true. *)
  Definition then_call {A B} (x : reply A) (f : A -> option B) : option B := match x with Returns true (Some v) => f v | _ => None end.
  Definition read_signature (l : bytes) : reply g1_point := ffi_deserialize (signature_deserialize sqrt g1_test) l.
  Definition read_key (l : bytes) : reply g2_point := ffi_deserialize (public_key_deserialize sqrt2 g2_test) l.
  (** deserialize_private_key, private_key_to_public_key, serialize_public_key *)
  Definition c_public_key (sk : bytes) : option bytes :=
    then_call (ffi_deserialize private_key_deserialize sk) (fun k =>
    then_call (ffi_private_key_to_public_key (pr := real_pairing) k) (fun pk =>
    then_call (ffi_serialize public_key_serialize (to2 pk)) (fun out => Some (fst out)))).
  (** deserialize_private_key, sign_message, serialize_signature *)
  Definition c_sign (sk m x : bytes) (composite cip22 : bool) : option bytes :=
    then_call (ffi_deserialize private_key_deserialize sk) (fun k =>
    then_call (ffi_sign_message direct_g1 composite_g1 cip22_g1 k m x composite cip22) (fun s =>
    then_call (ffi_serialize signature_serialize (to1 s)) (fun out => Some (fst out)))).
  (** deserialize_public_key, deserialize_signature, verify_signature *)
  Definition c_verify (pk sig m x : bytes) (composite cip22 : bool) : option bool :=
    then_call (read_key pk) (fun P => then_call (read_signature sig) (fun S =>
    then_call (ffi_verify_signature direct_g1 composite_g1 cip22_g1 (of2 P) m x (of1 S) composite cip22) (fun v => Some v))).
  (** the same with sign_pop and verify_pop *)
  Definition c_sign_pop (sk m : bytes) : option bytes :=
    then_call (ffi_deserialize private_key_deserialize sk) (fun k =>
    then_call (ffi_sign_pop direct_g1 k m) (fun s =>
    then_call (ffi_serialize signature_serialize (to1 s)) (fun out => Some (fst out)))).
  Definition c_verify_pop (pk sig m : bytes) : option bool :=
    then_call (read_key pk) (fun P => then_call (read_signature sig) (fun S =>
    then_call (ffi_verify_pop direct_g1 (of2 P) m (of1 S)) (fun v => Some v))).
  (** deserialize_signature of each, aggregate_signatures, serialize_signature *)
  Fixpoint read_all {A} (read : bytes -> reply A) (ls : list bytes) : option (list A) :=
    match ls with [] => Some [] | l :: ls' => then_call (read l) (fun P => option_map (cons P) (read_all read ls')) end.
  Definition c_aggregate (sigs : list bytes) : option bytes :=
    match read_all read_signature sigs with
    | Some Ps => then_call (ffi_aggregate_signatures (pr := real_pairing) (map of1 Ps)) (fun s =>
                 then_call (ffi_serialize signature_serialize (to1 s)) (fun out => Some (fst out)))
    | None => None
    end.
  (** The process-wide cache (cache.rs) on Jacobian representations over Fq2, with any hash [fh] of the coordinates.
      Reading gives z = 1, or (1, 1, 0) for the point at infinity ([into_projective], public.rs lines 138-142). *)
  Definition jac2 (P : g2_point) : jac fq2 := match P with Some (x, y) => Jac x y q2_1 | None => Jac q2_1 q2_1 q2_0 end.
  Definition jac2_point (J : jac fq2) : g2_point :=
    if q2eqb (jz J) q2_0 then None else Some (q2div (jx J) (q2mul (jz J) (jz J)), q2div (jy J) (q2mul (jz J) (q2mul (jz J) (jz J)))).
  Definition real_cache (fh : fq2 -> Z) : cenv :=
    CEnv fq2 q2eqb q2eqb_spec fh (sub g2_curve) (fun J => of2 (jac2_point J))
      (fun l => match public_key_deserialize sqrt2 g2_test l with Ok P => Some (jac2 P) | _ => None end).
  (** deserialize_public_key of each, aggregate_public_keys with the cache as the calls [h] left it, serialize_public_key *)
  Definition c_aggregate_keys (fh : fq2 -> Z) (h : list (cop (real_cache fh))) (o1 o2 : order (real_cache fh)) (pks : list bytes) : option bytes :=
    match read_all read_key pks with
    | Some Ps => then_call (snd (ffi_aggregate_public_keys o1 o2 (crun h) (map jac2 Ps))) (fun P =>
                 then_call (ffi_serialize public_key_serialize (to2 P)) (fun out => Some (fst out)))
    | None => None
    end.
End Real.
