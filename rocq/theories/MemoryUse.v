(** The entry points meet the protocol, and one session from start to end. *)
From Coq Require Import Permutation.
From Verif Require Import Base Constants Group BlsModel BlsSpec BlsProofs CodecModel FfiModel FfiSpec FfiProofs MemoryModel MemorySpec MemoryProofs.

Lemma failed_stores {A} (x : result A) o : convert_result_to_bool (store x) = Returns false o -> o = None.
Proof. destruct x; cbn; intros H; [discriminate H|injection H as <-; reflexivity|discriminate H]. Qed.

Section Use.
  Context {pr : pairing}.
  Notation G1 := (G1 pr). Notation G2 := (G2 pr).
  Context (direct composite composite_cip22 : BlsModel.hasher pr).
  Notation object := (object Z G2 G1). Notation call := (call Z G2 G1). Notation heap := (heap Z G2 G1).
  Notation meets c ks := (@meets Z G2 G1 c ks) (only parsing).
  Lemma boxed_moderate {A} (mk : A -> object) x b gs : boxed mk x = Some (Returns b (Some gs)) -> Forall fits gs.
  Proof.
    unfold boxed. destruct x as [b' [v|]|]; cbn [map_reply option_map]; intros H; try discriminate H.
    injection H as _ <-. constructor; [exact I|constructor].
  Qed.
  Lemma boxed_clean {A} (mk : A -> object) (x : result A) o : boxed mk (convert_result_to_bool (store x)) = Some (Returns false o) -> o = None.
  Proof. destruct x; cbn; intros H; [discriminate H|injection H as <-; reflexivity|discriminate H]. Qed.
  Lemma verdict_moderate x b gs : @verdict pr x = Some (Returns b (Some gs)) -> Forall fits gs.
  Proof.
    unfold verdict. destruct x as [b' [v|]|]; cbn [map_reply option_map]; intros H; try discriminate H.
    injection H as _ <-. constructor; [exact I|constructor].
  Qed.
  Lemma verdict_clean (x : result bool) o : @verdict pr (convert_result_to_bool (store x)) = Some (Returns false o) -> o = None.
  Proof. destruct x; cbn; intros H; [discriminate H|injection H as <-; reflexivity|discriminate H]. Qed.

  Lemma one_kind k (os : list object) : map kind_of os = [k] -> exists o, os = [o] /\ kind_of o = k.
  Proof. destruct os as [|o [|o' os]]; cbn; intros H; try discriminate H. injection H as H. exists o. auto. Qed.
  Lemma two_kinds k k' (os : list object) : map kind_of os = [k; k'] -> exists o o', os = [o; o'] /\ kind_of o = k /\ kind_of o' = k'.
  Proof. destruct os as [|o [|o' [|? ?]]]; cbn; intros H; try discriminate H. injection H as H H'. exists o, o'. auto. Qed.
  Ltac one := intros os H; destruct (one_kind _ os H) as (o & -> & K); destruct o; cbn in K; try discriminate K; eexists; reflexivity.
  Ltac two := intros os H; destruct (two_kinds _ _ os H) as (o & o' & -> & K & K'); destruct o; cbn in K; try discriminate K;
    destruct o'; cbn in K'; try discriminate K'; eexists; reflexivity.

  Lemma meets_generate sk : meets (call_generate_private_key sk) [].
  Proof.
    split; [|split].
    - intros os _. eexists. reflexivity.
    - intros os b gs H. apply (boxed_moderate _ _ _ _ H).
    - intros os o H. discriminate H.
  Qed.
  Lemma meets_to_public : meets call_private_key_to_public_key [KPrivate].
  Proof.
    split; [|split].
    - one.
    - intros os b gs H. destruct os as [|[sk|pk|s] [|? ?]]; try discriminate H. apply (boxed_moderate _ _ _ _ H).
    - intros os x H. destruct os as [|[sk|pk|s] [|? ?]]; try discriminate H.
  Qed.
  Lemma meets_sign m x f f' : meets (call_sign_message direct composite composite_cip22 m x f f') [KPrivate].
  Proof.
    split; [|split].
    - one.
    - intros os b gs H. destruct os as [|[sk|pk|s] [|? ?]]; try discriminate H. apply (boxed_moderate _ _ _ _ H).
    - intros os o H. destruct os as [|[sk|pk|s] [|? ?]]; try discriminate H. apply (boxed_clean _ _ _ H).
  Qed.
  Lemma meets_sign_pop m : meets (call_sign_pop direct m) [KPrivate].
  Proof.
    split; [|split].
    - one.
    - intros os b gs H. destruct os as [|[sk|pk|s] [|? ?]]; try discriminate H. apply (boxed_moderate _ _ _ _ H).
    - intros os o H. destruct os as [|[sk|pk|s] [|? ?]]; try discriminate H. apply (boxed_clean _ _ _ H).
  Qed.
  Lemma meets_verify m x f f' : meets (call_verify_signature direct composite composite_cip22 m x f f') [KPublic; KSignature].
  Proof.
    split; [|split].
    - two.
    - intros os b gs H. destruct os as [|[sk|pk|s] [|[sk'|pk'|s'] [|? ?]]]; try discriminate H. apply (verdict_moderate _ _ _ H).
    - intros os o H. destruct os as [|[sk|pk|s] [|[sk'|pk'|s'] [|? ?]]]; try discriminate H. apply (verdict_clean _ _ H).
  Qed.
  Lemma meets_verify_pop m : meets (call_verify_pop direct m) [KPublic; KSignature].
  Proof.
    split; [|split].
    - two.
    - intros os b gs H. destruct os as [|[sk|pk|s] [|[sk'|pk'|s'] [|? ?]]]; try discriminate H. apply (verdict_moderate _ _ _ H).
    - intros os o H. destruct os as [|[sk|pk|s] [|[sk'|pk'|s'] [|? ?]]]; try discriminate H. apply (verdict_clean _ _ H).
  Qed.
  Lemma meets_aggregate n : meets call_aggregate_signatures (repeat KSignature n).
  Proof.
    split; [|split].
    - intros os H. unfold call_aggregate_signatures. assert (E : exists l, signatures_of os = Some l).
      { revert n H. induction os as [|[sk|pk|s] os IH]; intros n H; [exists []; reflexivity| | |];
          (destruct n as [|n]; [discriminate H|]); cbn [map repeat kind_of] in H; try discriminate H.
        destruct (IH n) as [l El]; [congruence|]. exists (s :: l). cbn [signatures_of]. rewrite El. reflexivity. }
      destruct E as [l ->]. eexists. reflexivity.
    - intros os b gs H. unfold call_aggregate_signatures in H. destruct (signatures_of os); [|discriminate H]. apply (boxed_moderate _ _ _ _ H).
    - intros os o H. unfold call_aggregate_signatures in H. destruct (signatures_of os); [|discriminate H]. apply (boxed_clean _ _ _ H).
  Qed.
  Lemma meets_deserialize_public_key d data : meets (call_deserialize_public_key d data) [].
  Proof.
    split; [|split].
    - intros os _. eexists. reflexivity.
    - intros os b gs H. apply (boxed_moderate _ _ _ _ H).
    - intros os o H. apply (boxed_clean _ _ _ H).
  Qed.
  Lemma meets_deserialize_signature d data : meets (call_deserialize_signature d data) [].
  Proof.
    split; [|split].
    - intros os _. eexists. reflexivity.
    - intros os b gs H. apply (boxed_moderate _ _ _ _ H).
    - intros os o H. apply (boxed_clean _ _ _ H).
  Qed.
  Lemma meets_serialize_public_key s cap : (forall v, small (s v) cap) ->
    meets (call_serialize_public_key s cap) [KPublic].
  Proof.
    intros L. split; [|split].
    - one.
    - intros os b gs H. destruct os as [|[sk|pk|x] [|? ?]]; try discriminate H. cbn in H. injection H as _ <-. constructor; [apply L|constructor].
    - intros os o H. destruct os as [|[sk|pk|x] [|? ?]]; try discriminate H.
  Qed.
  Lemma meets_serialize_signature s cap : (forall v, small (s v) cap) ->
    meets (call_serialize_signature s cap) [KSignature].
  Proof.
    intros L. split; [|split].
    - one.
    - intros os b gs H. destruct os as [|[sk|pk|x] [|? ?]]; try discriminate H. cbn in H. injection H as _ <-. constructor; [apply L|constructor].
    - intros os o H. destruct os as [|[sk|pk|x] [|? ?]]; try discriminate H.
  Qed.
  Lemma meets_bytes y cap ks : (forall l n, y = Ok (l, n) -> small l cap) ->
    meets (call_bytes (convert_result_to_bool (store y)) cap) ks.
  Proof.
    intros L. destruct y as [[l n]|e|]; (split; [intros os _; eexists; reflexivity|split]); intros os; cbn.
    - intros b gs H. injection H as _ <-. constructor; [apply (L l n eq_refl)|constructor].
    - intros o H. discriminate H.
    - intros b gs H. discriminate H.
    - intros o H. injection H as <-. reflexivity.
    - intros b gs H. discriminate H.
    - intros o H. discriminate H.
  Qed.
  Lemma meets_bytes_counter y cap ks : (forall l n c, y = Ok (l, n, c) -> small l cap) ->
    meets (call_bytes_counter (convert_result_to_bool (store y)) cap) ks.
  Proof.
    intros L. destruct y as [[[l n] c]|e|]; (split; [intros os _; eexists; reflexivity|split]); intros os; cbn.
    - intros b gs H. injection H as _ <-. constructor; [apply (L l n c eq_refl)|constructor; [exact I|constructor]].
    - intros o H. discriminate H.
    - intros b gs H. discriminate H.
    - intros o H. injection H as <-. reflexivity.
    - intros b gs H. discriminate H.
    - intros o H. discriminate H.
  Qed.
  Lemma meets_bytes_pair y cap cap' ks : (forall l n l' n', y = Ok ((l, n), (l', n')) -> small l cap /\ small l' cap') ->
    meets (call_bytes_pair (convert_result_to_bool (store y)) cap cap') ks.
  Proof.
    intros L. destruct y as [[[l n] [l' n']]|e|]; (split; [intros os _; eexists; reflexivity|split]); intros os; cbn.
    - intros b gs H. injection H as _ <-. destruct (L l n l' n' eq_refl). constructor; [assumption|constructor; [assumption|constructor]].
    - intros o H. discriminate H.
    - intros b gs H. discriminate H.
    - intros o H. injection H as <-. reflexivity.
    - intros b gs H. discriminate H.
    - intros o H. discriminate H.
  Qed.
  (** The length written is the one of FfiModel.v, of whatever size. *)
  Lemma bytes_length address (h : heap) ps b l cap h' ws : Z.of_nat (length l) <= cap ->
    run_call address h ps (call_bytes (Returns b (Some (out_vec l))) cap) = Done h' b ws -> exists p, ws = [WVec p (snd (out_vec l))].
  Proof.
    intros L. unfold run_call. destruct (deref h ps) as [os|]; [|intros H; discriminate H]. unfold call_bytes. cbn [map_reply option_map].
    cbn [give_all]. change (fst (out_vec l)) with l. rewrite vec_gives by exact L. intros H. injection H as _ <-. destruct l as [|c l]; eexists; reflexivity.
  Qed.
  Lemma failed_call address (h : heap) ps c h' ws : clean c -> run_call address h ps c = Done h' false ws -> h' = h /\ ws = [].
  Proof.
    intros C. unfold run_call. destruct (deref h ps) as [os|]; [|intros H; discriminate H].
    destruct (c os) as [[b [gs|]|]|] eqn:E; try (intros H; discriminate H).
    - destruct (give_all address h gs) as [[h1 ws1]|]; [|intros H; discriminate H]. intros H. injection H as _ -> _.
      pose proof (C os _ E) as K. discriminate K.
    - intros H. injection H as -> _ <-. split; reflexivity.
  Qed.
  (** ** Generate, sign, verify, destroy *)
  Context (address : heap -> layout -> Z) (HA : proper_allocator address).
  Lemma lookup_head (h : heap) p b : lookup ((p, b) :: h) p = Some b.
  Proof. unfold lookup. cbn [find fst]. rewrite Z.eqb_refl. reflexivity. Qed.
  Lemma lookup_tail (h : heap) q p b : q <> p -> lookup ((q, b) :: h) p = lookup h p.
  Proof. intros H. unfold lookup. cbn [find fst]. rewrite (proj2 (Z.eqb_neq q p)) by exact H. reflexivity. Qed.
  Definition priv_block sk : block Z G2 G1 := Block (LBox KPrivate) (Object (OPrivate sk)).
  Definition pub_block pk : block Z G2 G1 := Block (LBox KPublic) (Object (OPublic pk)).
  Definition sig_block s : block Z G2 G1 := Block (LBox KSignature) (Object (OSignature s)).
  Lemma life_cycle (h : heap) sk m x f f' s :
    ffi_sign_message direct composite composite_cip22 sk m x f f' = Returns true (Some s) ->
    exists h1 p1 h2 p2 h3 p3 h4 h5,
      run_call address h [] (call_generate_private_key sk) = Done h1 true [WBox KPrivate p1] /\
      run_call address h1 [p1] call_private_key_to_public_key = Done h2 true [WBox KPublic p2] /\
      run_call address h2 [p1] (call_sign_message direct composite composite_cip22 m x f f') = Done h3 true [WBox KSignature p3] /\
      run_call address h3 [p2; p3] (call_verify_signature direct composite composite_cip22 m x f f') = Done h3 true [WValue 1] /\
      run_destroy h3 KPrivate p1 = Done h4 true [] /\ run_destroy h4 KPublic p2 = Done h5 true [] /\ run_destroy h5 KSignature p3 = Done h true [].
  Proof.
    intros Hs. pose proof (sign_verify direct composite composite_cip22 f f' sk m x s Hs) as Hv. set (p1 := address h (LBox KPrivate)). set (h1 := (p1, priv_block sk) :: h).
    set (p2 := address h1 (LBox KPublic)). set (h2 := (p2, pub_block (to_public sk)) :: h1).
    set (p3 := address h2 (LBox KSignature)). set (h3 := (p3, sig_block s) :: h2).
    destruct (HA h (LBox KPrivate)) as [Z1 F1]. destruct (HA h1 (LBox KPublic)) as [Z2 F2]. destruct (HA h2 (LBox KSignature)) as [Z3 F3].
    fold p1 in Z1, F1. fold p2 in Z2, F2. fold p3 in Z3, F3.
    assert (N21 : p2 <> p1) by (intros E; apply F2; rewrite E; left; reflexivity).
    assert (N31 : p3 <> p1) by (intros E; apply F3; rewrite E; right; left; reflexivity).
    assert (N32 : p3 <> p2) by (intros E; apply F3; rewrite E; left; reflexivity).
    assert (L11 : lookup h1 p1 = Some (priv_block sk)) by apply lookup_head.
    assert (L21 : lookup h2 p1 = Some (priv_block sk)) by (unfold h2; rewrite lookup_tail by exact N21; exact L11).
    assert (L22 : lookup h2 p2 = Some (pub_block (to_public sk))) by apply lookup_head.
    assert (L32 : lookup h3 p2 = Some (pub_block (to_public sk))) by (unfold h3; rewrite lookup_tail by exact N32; exact L22).
    assert (L33 : lookup h3 p3 = Some (sig_block s)) by apply lookup_head.
    exists h1, p1, h2, p2, h3, p3, ((p3, sig_block s) :: (p2, pub_block (to_public sk)) :: h), ((p3, sig_block s) :: h).
    split; [reflexivity|]. split; [unfold run_call; cbn [deref]; rewrite L11; reflexivity|].
    split; [unfold run_call; cbn [deref]; rewrite L21; cbn [priv_block call_sign_message]; rewrite Hs; reflexivity|].
    split; [unfold run_call; cbn [deref]; rewrite L32, L33; cbn [pub_block sig_block call_verify_signature]; rewrite Hv; reflexivity|].
    unfold run_destroy. rewrite (proj2 (Z.eqb_neq p1 0)), (proj2 (Z.eqb_neq p2 0)), (proj2 (Z.eqb_neq p3 0)) by assumption.
    unfold h3, h2, h1. cbn [dealloc].
    rewrite (proj2 (Z.eqb_neq p3 p1)), (proj2 (Z.eqb_neq p2 p1)), (proj2 (Z.eqb_neq p3 p2)), !Z.eqb_refl by assumption. repeat split.
  Qed.
End Use.
