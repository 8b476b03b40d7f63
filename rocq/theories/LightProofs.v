(** Proofs for C62. *)
From Coq Require Import Permutation.
From Verif Require Import Base Constants Group Field Curve BitsModel BitsProofs EncodingModel EncodingSpec EncodingProofs Blake2 HasherModel HasherSpec PointModel HashCurveModel HashCurveSpec CodecSpec
  Circuit CircuitFacts GadgetModel GadgetSpec HashGadgetModel HashGadgetSpec EpochCircuitModel EpochSpec EpochCircuitSpec EpochProofs EpochChainProofs ProverSpec FfiModel FfiSpec FfiDataProofs LightSpec PropEpoch PropFfi.

Lemma ok_inj {A} (a b : A) : Ok a = Ok b -> a = b. Proof. congruence. Qed.
Lemma some_inj {A} (a b : A) : Some a = Some b -> a = b. Proof. congruence. Qed.
Lemma filter_le {A} (f : A -> bool) l : (length (filter f l) <= length l)%nat.
Proof. induction l as [|x l IH]; [reflexivity|]. cbn [filter]. destruct (f x); cbn [length]; lia. Qed.
Lemma c_block_wf sqrt in_subgroup x b : sqrt_spec q2mul sqrt -> c_block x -> epoch_block_try_from sqrt in_subgroup x = Ok b -> wf_block b.
Proof.
  intros Hs (I & R & M & E & P & B & N & L) H. unfold epoch_block_try_from in H.
  destruct (read_pubkeys sqrt in_subgroup (ef_pubkeys x) (ef_pubkeys_num x)) as [ks|er|] eqn:K; cbn [rbind] in H; [|discriminate H|discriminate H].
  apply ok_inj in H. subst b. apply (C53_read_pubkeys sqrt in_subgroup _ _ ks Hs B N L) in K as (_ & _ & K).
  split; [unfold wf_numbers; cbn [eb_index eb_round eb_max_non_signers]; auto|]. cbn [eb_epoch_entropy eb_parent_entropy eb_keys].
  split; [apply entropy_ptr_wf, E|]. split; [apply entropy_ptr_wf, P|].
  apply forallb_forall. intros [[X Y]|] HX; [|reflexivity]. apply In_nth_error in HX as [i HX].
  assert (i < length ks)%nat as Hi by (apply nth_error_Some; rewrite HX; discriminate).
  destruct (K i Hi) as (Q & EQ & (W & _)). rewrite HX in EQ. apply some_inj in EQ. subst Q. destruct W as [W _]. apply on_twist_spec. exact W.
Qed.

(** Counting up without meeting 0 is counting in the integers. *)
Lemma no_wrap {E2 : grp} (i : fq) (l : list (header E2)) : counted i l -> Forall (fun h => h_index h <> q0) l ->
  forall k h, nth_error l k = Some h -> fqv (h_index h) = fqv i + Z.of_nat (S k).
Proof.
  revert i. induction l as [|h l IH]; intros i C F k h' E; [destruct k; discriminate E|]. destruct C as [C1 C2]. inversion F as [|? ? N F']; subst.
  assert (S1 : fqv (h_index h) = fqv i + 1).
  { rewrite C1 in N |- *. unfold qadd in *. rewrite fqv_of in *. change (fqv q1) with 1 in *. pose proof (fqv_range i).
    destruct (Z.eq_dec (fqv i) (p - 1)) as [D|D]; [|apply Z.mod_small; lia]. exfalso. apply N. apply fq_ext. rewrite fqv_of. change (fqv q0) with 0.
    rewrite D. replace (p - 1 + 1) with p by lia. apply Z_mod_same_full. }
  destruct k as [|k]; cbn [nth_error] in E.
  - apply some_inj in E. subst h'. rewrite S1. lia.
  - rewrite (IH _ C2 F' k h' E), S1. lia.
Qed.
Lemma real_index {E2 : grp} (l : list (header E2)) : Forall (fun h => h_index h <> q0) (real_headers l).
Proof.
  apply Forall_forall. intros h H. apply filter_In in H as [_ H]. intros X. rewrite X in H. vm_compute in H. discriminate H.
Qed.

Section Light.
  Context (E1 E2 GT : grp) (e : E1 -> E2 -> GT) (gen1 : E1) (gen2 : E2).
  Context (of1 : apoint fq -> E1) (of2 : apoint fq2 -> E2) (to1 : E1 -> apoint fq) (to2 : E2 -> apoint fq2).
  Context (sqrt : fq -> option fq) (ped : bytes -> option fq) (compat debug : bool).
  Context (HP : Type) (helper_verify : HP -> list (list bool) -> bool).
  Notation circuit := (generate_constraints e gen1 gen2 of1 of2 to1 to2 sqrt ped compat true debug helper_verify).
  Notation cert := (certified e gen2 (opens_to of2) (hashes_to of1 (native_ped ped) compat)).
  Context (sqrt2 : fq2 -> option fq2) (in_subgroup : fq2 * fq2 -> bool).

  Lemma circuit_certifies n (w : validator_set_update E1 E2 HP) inputs : linear_at e gen2 -> gen2 <> gz -> sizes n w -> vsu_helper w = None -> holds (circuit w) inputs ->
    exists h0 hs last pairs s, (length (hs ++ [last]) <= length (vsu_epochs w))%nat /\ cert n h0 (hs ++ [last]) pairs s /\ edges to2 inputs h0 last.
  Proof.
    intros [B1 B2] Hg SZ HN H. apply C44_statement with (n := n) in H; [|assumption..]. destruct H as (h0 & hs & last & pairs & s & L & W & C & N & _ & SG & D).
    unfold constrained in C. rewrite HN in C. cbn [hashes_in] in C.
    pose proof (chain_covered _ _ _ _ _ _ _ _ _ _ C) as (real & CV & PM).
    pose proof (chain_wf _ _ _ _ _ _ _ _ _ _ C) as CW. pose proof (chain_counted _ _ _ _ _ _ _ _ _ _ C) as CC. pose proof (real_index (hs ++ [last])) as RI.
    set (d := (length (hs ++ [last]) - length (real_headers (hs ++ [last])))%nat) in PM.
    assert (LE : (length (real_headers (hs ++ [last])) <= length (vsu_epochs w))%nat) by (rewrite <- L; unfold real_headers; apply filter_le).
    assert (CL : h_entropy h0 <> q0 -> linked_from (h_entropy h0) (real_headers (hs ++ [last]))) by (intros X; apply (chain_linked _ _ _ _ _ _ _ _ _ _ X C)).
    exists h0, (real_headers hs), last, real, (ga s (gn (sum (repeat gen1 d)))). rewrite <- real_snoc by exact N.
    split; [exact LE|]. split; [|exact D]. split; [constructor; assumption|].
    split; [apply no_wrap; [exact CC|exact RI]|]. split; [exact CL|]. split; [exact CV|].
    apply (signed_more e gen1 gen2 B1 _ real pairs d B2 PM). rewrite <- ga_assoc, gn_l. rewrite ga_comm, ga_0_l. exact SG.
  Qed.

  Context {vkey proof : Type} (vkd : bytes -> result vkey) (pd : bytes -> result proof) (vp : vkey -> proof -> list Z -> result bool).
  Lemma verified n (w : validator_set_update E1 E2 HP) v vk pf first last : linear_at e gen2 -> gen2 <> gz -> sqrt_spec q2mul sqrt2 -> sizes n w -> vsu_helper w = None ->
    sound_for (fun q inputs => vp v q inputs = Ok true) (holds (circuit w)) ->
    c_block first -> c_block last -> vkd vk = Ok v ->
    ffi_verify sqrt2 in_subgroup vkd pd vp blake2_out vk pf first last = Returns true None ->
    exists f l h0 hs hl pairs s, epoch_block_try_from sqrt2 in_subgroup first = Ok f /\ epoch_block_try_from sqrt2 in_subgroup last = Ok l /\
      (length (hs ++ [hl]) <= length (vsu_epochs w))%nat /\ cert n h0 (hs ++ [hl]) pairs s /\
      (shows_first of2 h0 f \/ collides (first_bits h0) (enc_first f)) /\
      (shows_last of2 hl l \/ exists agg, sums_to to2 hl agg /\ collides (closing_bits hl ++ agg) (enc_last l)).
  Proof.
    intros B Hg Hs SZ HN SND CF CL HV H. apply C58_verify_accepts in H as (f & l & v' & q & m1 & m2 & F & L & V & _ & E1' & E2' & A).
    rewrite HV in V. apply ok_inj in V. subst v'. apply SND in A as (xs & EX & HX).
    destruct (circuit_certifies n w xs B Hg SZ HN HX) as (h0 & hs & hl & pairs & s & LE & C & ED).
    exists f, l, h0, hs, hl, pairs, s. split; [exact F|]. split; [exact L|]. split; [exact LE|]. split; [exact C|].
    assert (HI : public_inputs g2_coords g2_sum g2_generator blake2_out f l = Ok (Some (map fqv xs))).
    { destruct (digests_exist blake2_out HasherProofs.blake2_out_length f l) as (m1' & m2' & D1 & D2 & D3). rewrite E1' in D1. rewrite E2' in D2.
      apply ok_inj in D1, D2. subst m1' m2'. rewrite D3, EX. reflexivity. }
    destruct (C44_digests E2 to2 xs h0 hl f l ED HI) as (agg & m3 & m4 & m5 & m6 & SA & X1 & X2 & X3 & Y1 & Y2 & Y3).
    destruct C as (W & _). inversion W as [|? ? W0 WL]; subst. apply Forall_app in WL as [_ WL]. inversion WL as [|? ? WL' _]; subst.
    split.
    - destruct (list_eq_dec Z.eq_dec m3 m5) as [->|NE]; [left|right; exists m3, m5; auto].
      apply (C44_first_shown E2 of2 n); [exact W0|exact (c_block_wf sqrt2 in_subgroup first f Hs CF F)|rewrite X1, X2; reflexivity].
    - destruct (list_eq_dec Z.eq_dec m4 m6) as [->|NE]; [left|right; exists agg; split; [exact SA|]; exists m4, m6; auto].
      eapply (C44_last_shown E2 of2 to2 n); [exact WL'|exact SA|exact (c_block_wf sqrt2 in_subgroup last l Hs CL L)|rewrite Y1, Y2; reflexivity].
  Qed.
End Light.

(** The number of headers is the distance of the two indices. *)
Lemma distance {E1 E2 GT : grp} (e : E1 -> E2 -> GT) gen2 opens hashes n (of2 : apoint fq2 -> E2) h0 hs hl pairs s f l :
  certified e gen2 opens hashes n h0 (hs ++ [hl]) pairs s -> shows_first of2 h0 f -> shows_last of2 hl l ->
  eb_index l = (eb_index f + Z.of_nat (length (hs ++ [hl]))) mod 2 ^ 16.
Proof.
  intros (_ & C & _) (I & _) (J & _). assert (X : nth_error (hs ++ [hl]) (length hs) = Some hl) by (rewrite nth_error_app2, Nat.sub_diag by lia; reflexivity).
  apply C in X. rewrite <- J, X, <- I, Z.add_mod_idemp_l by lia. rewrite app_length, Nat.add_1_r. reflexivity.
Qed.
Lemma covered_length {E1 E2 : grp} (gen2 : E2) hashes : forall l c (pairs : list (E1 * E2)), covered gen2 hashes c l pairs -> length pairs = length l.
Proof. induction l as [|h l IH]; intros c [|[P K] pairs] C; cbn [covered] in C; try contradiction; [reflexivity|]. cbn [length]. f_equal. destruct C as (_ & _ & C). eauto. Qed.

(** The first header is signed by validators of the first block. *)
Lemma same_keys_in {E2 : grp} (of2 : apoint fq2 -> E2) ks Ks k : Forall2 (same_key of2) ks Ks -> In k ks -> exists K, In K Ks /\ same_key of2 k K.
Proof. induction 1 as [|a b l l' S F IH]; intros I; [destruct I|]. destruct I as [->|I]; [exists b; cbn [In]; auto|]. destruct (IH I) as (K & I' & S'). exists K. cbn [In]. auto. Qed.
Lemma first_signers {E1 E2 GT : grp} (e : E1 -> E2 -> GT) gen2 opens hashes n (of2 : apoint fq2 -> E2) h0 h l pairs s f :
  certified e gen2 opens hashes n h0 (h :: l) pairs s -> shows_first of2 h0 f ->
  exists H signing rest, pairs = (H, sum signing) :: rest /\ hashes h H /\ sum signing <> gz /\
    Forall (fun k => k <> gen2 /\ exists K, In K (padded_keys f) /\ same_key of2 k K) signing /\
    Z.of_nat (length (padded_keys f)) - fqv (h_max h0) <= Z.of_nat (length signing).
Proof.
  intros (_ & _ & _ & C & _) (_ & _ & _ & F). destruct pairs as [|[H K] pairs]; cbn [covered] in C; [contradiction|].
  destruct C as (HH & (bm & sg & Q & -> & NZ) & _). exists H, sg, pairs. split; [reflexivity|]. split; [exact HH|]. split; [exact NZ|].
  destruct (C44_enough_signers E2 gen2 _ _ _ Q) as (LE & NI & SUB). cbn [committee_of m_keys m_max] in *. split.
  - apply Forall_forall. intros k I. split; [intros ->; exact (NI I)|]. apply (same_keys_in of2 _ _ k F), SUB, I.
  - rewrite <- (forall2_len _ _ _ F). exact LE.
Qed.
(** One transition: the signature is one on the last header by that quorum. *)
Lemma one_pair {E1 E2 GT : grp} (e : E1 -> E2 -> GT) gen2 s H K : linear_at e gen2 -> signed e gen2 s [(H, K)] <-> e s gen2 = e H K.
Proof.
  intros [B1 B2]. unfold signed. cbn [map sum fold_right].
  assert (Z : ga (e s (gn gen2)) (e s gen2) = gz).
  { rewrite B2. apply gn_l. }
  assert (A : sum [e H K] = e H K) by (cbn [sum fold_right]; rewrite ga_comm; apply ga_0_l). unfold sum in A. cbn [fold_right] in A. unfold sum. cbn [fold_right]. rewrite A. split; intros X.
  - apply (ga_cancel_l (e s (gn gen2))). rewrite Z, X. reflexivity.
  - rewrite <- X. exact Z.
Qed.
Lemma one_transition {E1 E2 GT : grp} (e : E1 -> E2 -> GT) gen2 opens hashes n (of2 : apoint fq2 -> E2) h0 hs hl pairs s f l :
  linear_at e gen2 -> certified e gen2 opens hashes n h0 (hs ++ [hl]) pairs s -> shows_first of2 h0 f -> shows_last of2 hl l ->
  Z.of_nat (length (hs ++ [hl])) < 2 ^ 16 -> eb_index l = (eb_index f + 1) mod 2 ^ 16 ->
  hs = [] /\ exists H signing, hashes hl H /\ e s gen2 = e H (sum signing) /\ sum signing <> gz /\
    Forall (fun k => k <> gen2 /\ exists K, In K (padded_keys f) /\ same_key of2 k K) signing /\
    Z.of_nat (length (padded_keys f)) - fqv (h_max h0) <= Z.of_nat (length signing).
Proof.
  intros B C SF SL LT IX. pose proof (distance e gen2 opens hashes n of2 _ _ _ _ _ _ _ C SF SL) as D. rewrite IX in D.
  assert (L1 : length (hs ++ [hl]) = 1%nat).
  { assert (X : (Z.of_nat (length (hs ++ [hl])) - 1) mod 2 ^ 16 = 0).
    { replace (Z.of_nat (length (hs ++ [hl])) - 1) with (eb_index f + Z.of_nat (length (hs ++ [hl])) - (eb_index f + 1)) by lia.
      rewrite Zminus_mod, <- D, Zminus_diag. reflexivity. }
    rewrite app_length in *. cbn [length] in *. rewrite Z.mod_small in X by lia. lia. }
  destruct hs as [|h hs]; [|rewrite app_length in L1; cbn [length] in L1; lia]. split; [reflexivity|]. cbn [app] in *.
  destruct (first_signers e gen2 opens hashes n of2 h0 hl [] pairs s f C SF) as (H & sg & rest & -> & HH & NZ & F & LE). exists H, sg. split; [exact HH|].
  destruct C as (_ & _ & _ & CV & SG). apply covered_length in CV. destruct rest; [|cbn [length] in CV; lia]. apply one_pair in SG; [|exact B]. auto.
Qed.
