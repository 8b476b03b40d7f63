(** Proofs for C63: the instances of [setup] and [prove], numbers of gates and of public inputs. *)
From Verif Require Import Base Constants Group Instances Field Curve BitsModel BitsProofs EncodingModel EncodingProofs Blake2 HasherModel HasherProofs PointModel HashCurveModel
  Circuit CircuitFacts GadgetModel HashGadgetModel HashGadgetProofs HashGadgetNative EpochCircuitModel EpochSpec EpochCircuitSpec EpochProofs EpochCircuitProofs ProverModel ProverSpec ProverProofs
  HelperModel HelperSpec HelperProofs PedersenModel SetupModel ShapeSpec ShapeProofs.
Local Open Scope circ_scope.

(** ** Instances *)
Lemma map_repeat {A B} (f : A -> B) x k : map f (repeat x k) = repeat (f x) k.
Proof. induction k; cbn; congruence. Qed.
Lemma dims_empty {S K P V} (d : P) n k m (vk : option V) : Z.of_nat n < 2 ^ 32 ->
  dims (validator_set_update_empty (S := S) (K := K) d n k m vk) = mk_dims n (Z.of_nat n) (repeat (n, n) k) (match vk with Some _ => true | None => false end).
Proof.
  intros L. unfold dims, validator_set_update_empty, epoch_data_empty, as_u32. cbn [vsu_initial vsu_num_validators vsu_epochs vsu_helper ed_keys].
  rewrite Z.mod_small, repeat_length, map_repeat by lia. unfold single_update_empty, epoch_data_empty. cbn [su_data su_bitmap ed_keys]. rewrite !repeat_length.
  destruct vk; reflexivity.
Qed.

Section Prove.
  Context {E1 E2 : grp} (gen1 : E1) (gen2 : E2) {HP : Type}.
  Implicit Types (helper : option (list (transition E1 E2) -> result HP)) (w : validator_set_update E1 E2 HP).
  Definition sized (n : nat) (t : transition E1 E2) : Prop := length (eb_keys (t_block t)) = n /\ length (t_bitmap t) = n.
  Lemma dims_prove helper n b ts max w : length (eb_keys b) = n -> Forall (sized n) ts -> prove gen1 gen2 helper (Z.of_nat n) b ts max = Ok w ->
    dims w = mk_dims n (Z.of_nat n) (repeat (n, n) max) (match helper with Some _ => true | None => false end) /\
    match helper with Some f => exists h, f ts = Ok h /\ vsu_helper w = Some h | None => vsu_helper w = None end.
  Proof.
    intros Lb F W.
    assert (HW : vsu_num_validators w = Z.of_nat n /\ vsu_initial w = to_epoch_data b /\
      match helper with Some f => exists h, f ts = Ok h /\ vsu_helper w = Some h | None => vsu_helper w = None end).
    { revert W. unfold prove. destruct (prove_updates _ _ _ _) as [us| |]; cbn [rbind]; try (intros X; discriminate X).
      destruct helper as [f|]; [destruct (f ts) as [h| |]|]; cbn [rbind]; try (intros X; discriminate X);
        (destruct (prove_signature _ _ _) as [s| |]; cbn [rbind]; [|intros X; discriminate X|intros X; discriminate X]); intros X; apply ok_inj in X; subst w;
        cbn [vsu_num_validators vsu_initial vsu_helper]; eauto. }
    destruct HW as (N & I & HH). split; [|exact HH].
    assert (HE : map (fun u => (length (ed_keys (su_data u)), length (su_bitmap u))) (vsu_epochs w) = repeat (n, n) max).
    { assert (T : map (fun u => (length (ed_keys (su_data u)), length (su_bitmap u))) (map to_update ts) = repeat (n, n) (length ts)).
      { clear - F. induction F as [|t ts [K B] _ IH]; [reflexivity|]. cbn [map length repeat]. rewrite IH. unfold to_update, to_epoch_data. cbn [su_data su_bitmap ed_keys].
        rewrite !map_length, K, B. reflexivity. }
      destruct (snoc_cases ts) as [->|(l & t & ->)].
      - unfold prove, prove_updates, prove_signature in W. cbn [map length] in W. destruct max as [|k]; [|discriminate W].
        cbn in W. destruct (match helper with Some f => _ | None => _ end); cbn [rbind] in W; try discriminate W. apply ok_inj in W. subst w. reflexivity.
      - pose proof (prove_shape gen1 gen2 helper n b l t max w W) as (Lm & ds & E & D & _). rewrite E in *.
        rewrite !map_app in *. cbn [map] in *. rewrite !app_length, map_length in *. cbn [length] in *.
        assert (DD : map (fun u : single_update E2 => (length (ed_keys (su_data u)), length (su_bitmap u))) ds = repeat (n, n) (length ds)).
        { clear - D. induction D as [|u ds -> _ IH]; [reflexivity|]. cbn [map length repeat]. rewrite IH. unfold to_update, to_epoch_data, dummy_block. cbn [t_block t_bitmap su_data su_bitmap ed_keys eb_keys].
          rewrite !map_length, !repeat_length. reflexivity. }
        rewrite repeat_app in T. cbn [repeat] in T. apply app_inj_tail in T as [T1 T2]. rewrite T1, T2, DD, app_assoc, <- repeat_app. change [(n, n)] with (repeat (n, n) 1). rewrite <- repeat_app.
        f_equal. lia. }
    unfold dims. rewrite N, I, HE. unfold to_epoch_data at 1. cbn [ed_keys]. rewrite map_length, Lb. f_equal.
    destruct helper as [f|]; [destruct HH as (h & _ & ->)|rewrite HH]; reflexivity.
  Qed.
End Prove.

Section SetupProve.
  Context {E1 E2 GT : grp} (e : E1 -> E2 -> GT) (gen1 : E1) (gen2 : E2).
  Context (of1 : apoint fq -> E1) (of2 : apoint fq2 -> E2) (to1 : E1 -> apoint fq) (to2 : E2 -> apoint fq2).
  Context (sqrt : fq -> option fq) (ped : bytes -> option fq) (compat pin debug : bool).
  Context {P V key_e key_h R : Type} (vk_of : key_h -> V) (default_proof : P) (helper_verify : P * V -> list (list bool) -> bool).
  Notation circuit := (generate_constraints e gen1 gen2 of1 of2 to1 to2 sqrt ped compat pin debug helper_verify).
  Lemma setup_prove n k m rng hs vs (flag : bool) (q : parameters key_e key_h) (rng' : R) create b ts w : Z.of_nat n < 2 ^ 32 ->
    setup vk_of default_proof n k m rng hs vs flag = Val (q, rng') ->
    length (eb_keys b) = n -> Forall (sized n) ts -> prove gen1 gen2 (helper_of vk_of create q) (Z.of_nat n) b ts k = Ok w ->
    exists w0 rng0, vs w0 rng0 = Val (p_epochs q, rng') /\ same (circuit w0) (circuit w) /\ option_map snd (vsu_helper w0) = option_map snd (vsu_helper w) /\
      match p_hash_to_bits q with Some key => flag = true /\ hs (hash_to_bits_empty k) rng = Val (key, rng0) | None => flag = false /\ rng0 = rng end.
  Proof.
    intros Ln U Lb F W. unfold setup in U.
    assert (X : exists vk hk rng0, vs (validator_set_update_empty default_proof n k m vk) rng0 = Val (p_epochs q, rng') /\ p_hash_to_bits q = hk /\ vk = option_map vk_of hk /\
      match hk with Some key => flag = true /\ hs (hash_to_bits_empty k) rng = Val (key, rng0) | None => flag = false /\ rng0 = rng end).
    { destruct flag.
      - destruct (hs (hash_to_bits_empty k) rng) as [[hk rng0]|er|] eqn:EH; try discriminate U.
        destruct (vs _ rng0) as [[ep rng1]|er|] eqn:EV; try discriminate U. injection U as <- <-. exists (Some (vk_of hk)), (Some hk), rng0. auto.
      - destruct (vs _ rng) as [[ep rng1]|er|] eqn:EV; try discriminate U. injection U as <- <-. exists None, None, rng. auto. }
    destruct X as (vk & hk & rng0 & EV & EH & EK & ES). destruct (dims_prove gen1 gen2 _ n b ts k w Lb F W) as [D HH].
    eexists. exists rng0. split; [exact EV|]. split; [|split].
    - apply same_circuit. rewrite D, (dims_empty default_proof n k m vk Ln). f_equal. rewrite EK. unfold helper_of. rewrite EH. destruct hk; reflexivity.
    - unfold helper_of in HH. rewrite EH in HH. cbn [validator_set_update_empty vsu_helper]. rewrite EK. destruct hk as [key|]; cbn [option_map] in *; [|rewrite HH; reflexivity].
      destruct HH as (h & E & ->). destruct (create key ts) as [pr| |]; cbn [rbind] in E; try discriminate E. apply ok_inj in E. subst h. reflexivity.
    - rewrite EH. exact ES.
  Qed.
  (** neither does the threshold given to the setup matter *)
  Lemma setup_threshold n k m m' (vk vk' : option V) d d' : option_map (fun _ => tt) vk = option_map (fun _ => tt) vk' ->
    same (circuit (validator_set_update_empty d n k m vk)) (circuit (validator_set_update_empty d' n k m' vk')).
  Proof.
    intros E. apply same_circuit. unfold dims, validator_set_update_empty, single_update_empty, epoch_data_empty. cbn [vsu_initial vsu_num_validators vsu_epochs vsu_helper ed_keys].
    rewrite !map_repeat. cbn [su_data su_bitmap ed_keys]. destruct vk, vk'; try discriminate E; reflexivity.
  Qed.
End SetupProve.

(** ** The Pedersen hash of the circuit is defined by length *)
Lemma crh_x_by_length gens : by_length (crh_x gens).
Proof.
  intros m m' L. unfold crh_x, crh_evaluate. rewrite L. destruct (_ <? _); [tauto|]. destruct (negb _); [tauto|]. split; intros X; discriminate X.
Qed.

(** ** Passes *)
Lemma pass_bind {A B} (c : circ A) (f : A -> circ B) y : forall l, pass (cbind c f) l (Val y) <->
  exists l1 l2 a, pass c l1 (Val a) /\ pass (f a) l2 (Val y) /\ l = l1 ++ l2.
Proof.
  induction c as [a|T h k IH|b k IH|er]; intros l; cbn [cbind pass].
  - split.
    + intros X. exists [], l, a. auto.
    + intros (l1 & l2 & a' & [-> E] & X & ->). injection E as <-. exact X.
  - split.
    + intros (m & v & -> & X). apply IH in X as (l1 & l2 & a & X1 & X2 & ->). exists (Alloc T :: l1), l2, a. split; [exists l1, v; auto|auto].
    + intros (l1 & l2 & a & (m & v & -> & X1) & X2 & ->). exists (m ++ l2), v. split; [reflexivity|]. apply IH. eauto 6.
  - split.
    + intros (m & -> & X). apply IH in X as (l1 & l2 & a & X1 & X2 & ->). exists (Check :: l1), l2, a. split; [exists l1; auto|auto].
    + intros (l1 & l2 & a & (m & -> & X1) & X2 & ->). exists (m ++ l2). split; [reflexivity|]. apply IH. eauto 6.
  - split.
    + intros [_ X]. destruct er; discriminate X.
    + intros (l1 & l2 & a & [_ X] & _). destruct er; discriminate X.
Qed.
Lemma pass_len {A} (R : A -> A -> Prop) (c c' : circ A) l l' x x' : alike R c c' -> pass c l (Val x) -> pass c' l' (Val x') -> length l = length l' /\ R x x'.
Proof. intros HA X Y. destruct (alike_layout R c c' HA l l' _ _ X Y) as [-> E]. auto. Qed.
Tactic Notation "pb" hyp(H) ident(l) ident(a) ident(X) := apply pass_bind in H as (l & ? & a & X & H & ->).

Section Gates.
  Context {E1 E2 GT : grp} (e : E1 -> E2 -> GT) (gen1 : E1) (gen2 : E2).
  Context (of1 : apoint fq -> E1) (of2 : apoint fq2 -> E2) (to1 : E1 -> apoint fq) (to2 : E2 -> apoint fq2).
  Context (sqrt : fq -> option fq) (ped : bytes -> option fq) (compat pin debug : bool).
  Context {H : Type} (helper_verify : H -> list (list bool) -> bool).
  Context (PL : by_length ped).
  Notation circuit := (generate_constraints e gen1 gen2 of1 of2 to1 to2 sqrt ped compat pin debug helper_verify).
  Notation loop := (epochs_loop gen1 gen2 of1 of2 to2 sqrt ped compat pin debug).
  Notation update := (constrain_update gen2 of1 of2 to2 sqrt ped compat pin debug).

  Lemma al_last_any (v v' : @data_vars E2) ks ks' ib ib' : alike any (last_bits to2 v ks ib) (last_bits to2 v' ks' ib').
  Proof.
    unfold last_bits. apply (al_bind any); [constructor; exact I|intros ? ? _]. apply (al_bind any); [apply al_enforce|intros ? ? _].
    destruct (match to2 _ with Some c => c | None => _ end) as [x y]. destruct (match to2 _ with Some c => c | None => _ end) as [x' y'].
    eapply al_bind; [apply al_g2_bits|]. intros b b' _. apply (al_bind any); [apply al_enforce|intros ? ? _]. constructor. exact I.
  Qed.
  Lemma eq_zero_len f l z : pass (is_eq_zero (Var f)) l (Val z) -> length l = 5%nat.
  Proof.
    intros X. assert (Y : exists l', length l' = 5%nat /\ exists z', pass (is_eq_zero (Var f)) l' (Val z')).
    { exists [Alloc fq; Check; Alloc fq; Check; Check]. split; [reflexivity|]. eexists. cbn [is_eq_zero cbind new_bool pass witness enforce]. exists [Check; Alloc fq; Check; Check], q0. split; [reflexivity|].
      eexists. split; [reflexivity|]. exists [Check; Check], q0. split; [reflexivity|]. eexists. split; [reflexivity|]. eexists. split; [reflexivity|]. split; reflexivity. }
    destruct Y as (l' & L & z' & Y). destruct (pass_len _ _ _ _ _ _ _ (al_eq_zero f f) X Y) as [-> _]. exact L.
  Qed.
  Lemma prepare_len (Q : E2) l z : pass (prepare_g2 Q) l (Val z) -> length l = 1%nat.
  Proof. intros X. cbn [prepare_g2 cbind enforce pass] in X. destruct X as (m & -> & -> & _). reflexivity. Qed.

  (** every iteration has the gates of one update, six more, and in the last one those of the edge *)
  Lemma loop_gates n cst lu u0 c0 eb0 o0 ll v0 ks0 ib0 bits0 : shape n u0 -> length (c_keys c0) = n -> pass (update u0 c0 eb0 (Z.of_nat n) cst) lu (Val o0) -> pass (last_bits to2 v0 ks0 ib0) ll (Val bits0) ->
    forall us c eb l out, us <> [] -> Forall (shape n) us -> length (c_keys c) = n -> pass (loop us c eb (Z.of_nat n) cst) l (Val out) ->
    length l = (length us * (length lu + 6) + length ll)%nat.
  Proof.
    intros S0 C0 PU PB. induction us as [|u us IH]; intros c eb l out NE F C X; [destruct (NE eq_refl)|]. clear NE. inversion F as [|? ? Su Fs]; subst.
    cbn [epochs_loop] in X. pb X l1 r X1. destruct r as [[v [[mh crh] xof]] agg]. destruct Su as [Su1 Su2], S0 as [S1 S2].
    pose proof (al_update gen2 of1 of2 to2 sqrt ped compat pin debug PL u u0 c c0 eb eb0 (Z.of_nat (length (c_keys c0))) cst ltac:(congruence) ltac:(congruence) ltac:(congruence)) as AU.
    destruct (pass_len _ _ _ _ _ _ _ AU X1 PU) as [L1 V]. unfold upd_alike in V. cbn [fst] in V.
    pb X l2 z X2. apply eq_zero_len in X2. pb X l3 apk X3. apply prepare_len in X3. pb X l4 h X4. destruct X4 as [-> _].
    pb X l5 la X5. pb X l6 o X6. destruct o as [[[[o1 o2] o3] o4] o5]. destruct X as [-> _]. rewrite !app_length, L1, X2, X3. cbn [length].
    destruct us as [|u' us].
    - destruct (pass_len _ _ _ _ _ _ _ (al_last_any _ _ _ _ _ _) X5 PB) as [L5 _]. cbn [epochs_loop pass] in X6. destruct X6 as [-> _]. cbn [length]. lia.
    - destruct X5 as [-> _]. apply IH in X6; [rewrite X6; cbn [length]; lia|discriminate|assumption|].
      cbn [c_keys]. rewrite map_length, combine_length.
      assert (length (v_keys v) = length (c_keys c)) as ->; [|lia].
      (* the variables of the update's own keys *)
      clear - X1 Su1 C. unfold constrain_update in X1. destruct (negb _); [destruct X1 as [_ X1]; discriminate X1|].
      pb X1 m1 d Y1. destruct d as [v1 [[a1 a2] a3]]. pb X1 m2 z Y2. pb X1 m3 tt1 Y3. pb X1 m4 bm Y4. pb X1 m5 pr Y5. destruct pr as [p1 p2]. destruct X1 as [_ X1]. injection X1 as -> _ _ _ _.
      unfold constrain_data in Y1. pb Y1 m6 v2 Z1. pb Y1 m7 tt2 Z2. pb Y1 m8 hh Z3. destruct Y1 as [_ Y1]. injection Y1 as -> _.
      destruct (pass_len _ _ _ _ _ _ _ (al_to_bits of2 to2 pin (su_data u) (su_data u) eq_refl) Z1 Z1) as [_ [_ K]]. congruence.
  Qed.
  Lemma loop_parts n cst us : forall c eb l out, us <> [] -> Forall (shape n) us -> length (c_keys c) = n -> pass (loop us c eb (Z.of_nat n) cst) l (Val out) ->
    exists v ks ib ll bits, pass (last_bits to2 v ks ib) ll (Val bits).
  Proof.
    induction us as [|u us IH]; intros c eb l out NE F C X; [destruct (NE eq_refl)|]. clear NE. inversion F as [|? ? Su Fs]; subst.
    cbn [epochs_loop] in X. pb X l1 r X1. destruct r as [[v [[mh crh] xof]] agg]. pb X l2 z X2. pb X l3 apk X3. pb X l4 h X4. pb X l5 la X5. pb X l6 o X6.
    destruct us as [|u' us]; [eauto 6|]. eapply IH; [discriminate|exact Fs| |exact X6].
    cbn [c_keys]. rewrite map_length, combine_length. destruct Su as [Su1 Su2].
    assert (length (v_keys v) = length (c_keys c)) as ->; [|lia].
    clear - X1 Su1. unfold constrain_update in X1. destruct (negb _); [destruct X1 as [_ X1]; discriminate X1|].
    pb X1 m1 d Y1. destruct d as [v1 [[a1 a2] a3]]. pb X1 m2 z Y2. pb X1 m3 tt1 Y3. pb X1 m4 bm Y4. pb X1 m5 pr Y5. destruct pr as [p1 p2]. destruct X1 as [_ X1]. injection X1 as -> _ _ _ _.
    unfold constrain_data in Y1. pb Y1 m6 v2 Z1. pb Y1 m7 tt2 Z2. pb Y1 m8 hh Z3. destruct Y1 as [_ Y1]. injection Y1 as -> _.
    destruct (pass_len _ _ _ _ _ _ _ (al_to_bits of2 to2 pin (su_data u) (su_data u) eq_refl) Z1 Z1) as [_ [_ K]]. congruence.
  Qed.
  Lemma al_verify_bits b b' h h' : match h with Some _ => true | None => false end = match h' with Some _ => true | None => false end ->
    alike len (verify_bits helper_verify b h) (verify_bits helper_verify b' h').
  Proof.
    intros D4. unfold verify_bits. apply (al_bind any); [|intros ? ? _].
    - destruct h as [h|], h' as [h'|]; try discriminate D4; [|constructor; exact I].
      unfold verify_proof. apply (al_bind any); [apply al_witness; intros; exact I|intros ? ? _]. constructor. exact I.
    - unfold verify_edges. rewrite !edge_is. cbn [cbind]. apply al_multipack. rewrite !app_length, !bits_of_bytes_length.
      rewrite !(fun x => proj1 (blake2_out_length x)). reflexivity.
  Qed.
  Lemma al_signature (w w' : validator_set_update E1 E2 H) a a' h h' : alike any (verify_signature e gen2 of1 to1 pin w a h) (verify_signature e gen2 of1 to1 pin w' a' h').
  Proof.
    unfold verify_signature. apply (al_bind any); [apply al_alloc1|intros ? ? _]. unfold batch_verify_prepared. apply (al_bind any).
    - unfold prepare_signature_neg_generator, prepare_g1, prepare_g2. apply (al_bind any); [constructor; exact I|intros ? ? _].
      apply (al_bind any); [|intros ? ? _; constructor; exact I]. apply (al_bind any); [apply al_enforce|intros ? ? _; constructor; exact I].
    - intros [x y] [x' y'] _. apply al_enforce.
  Qed.
  Lemma more_epochs n (w w' : validator_set_update E1 E2 H) l l' x x' : sizes n w -> sizes n w' ->
    match vsu_helper w with Some _ => true | None => false end = match vsu_helper w' with Some _ => true | None => false end ->
    pass (circuit w) l (Val x) -> pass (circuit w') l' (Val x') -> (length (vsu_epochs w) < length (vsu_epochs w'))%nat -> (length l < length l')%nat.
  Proof.
    intros (N & _ & NE & I & F) (N' & _ & NE' & I' & F') D4 X X' L. unfold generate_constraints in X, X'. pb X l1 b X1. pb X' l1' b' X1'.
    destruct (pass_len _ _ _ _ _ _ _ (al_verify_bits b b' _ _ D4) X X') as [LB _].
    unfold enforce_epochs in X1, X1'. pb X1 l2 v0 X2. pb X1' l2' v0' X2'.
    destruct (pass_len _ _ _ _ _ _ _ (al_to_bits of2 to2 pin _ _ (eq_trans I (eq_sym I'))) X2 X2') as [L2 [V K]].
    pb X1 l3 o X3. pb X1' l3' o' X3'. destruct o as [[[[o1 o2] o3] o4] o5], o' as [[[[o1' o2'] o3'] o4'] o5'].
    pb X1 l4 t X4. pb X1' l4' t' X4'. destruct X1 as [-> _]. destruct X1' as [-> _]. destruct (pass_len _ _ _ _ _ _ _ (al_signature w w' _ _ _ _) X4 X4') as [L4 _].
    unfold verify_intermediate_epochs in X3, X3'. pb X3 l5 z X5. pb X3' l5' z' X5'. apply eq_zero_len in X5, X5'. rewrite N in X3. rewrite N' in X3'.
    set (cst := match vsu_helper w with Some _ => false | None => true end) in *.
    assert (CE : match vsu_helper w' with Some _ => false | None => true end = cst) by (unfold cst; destruct (vsu_helper w), (vsu_helper w'); try discriminate D4; reflexivity).
    rewrite CE in X3'.
    assert (K0 : length (v_keys v0) = n) by congruence. assert (K0' : length (v_keys v0') = n) by (destruct V as (_ & _ & _ & _ & V); congruence).
    destruct (loop_parts n cst _ (mk_carried (v_keys v0) (v_index v0) (v_entropy v0) (v_max v0)) _ _ _ NE F K0 X3) as (v & ks & ib & ll & bits & PB).
    assert (PU : exists u c eb lu o, shape n u /\ length (c_keys c) = n /\ pass (update u c eb (Z.of_nat n) cst) lu (Val o)).
    { destruct (vsu_epochs w) as [|u us]; [destruct (NE eq_refl)|]. inversion F as [|? ? Su _]; subst. cbn [epochs_loop] in X3. pb X3 m1 ro Y. exists u, (mk_carried (v_keys v0) (v_index v0) (v_entropy v0) (v_max v0)), (negb z), m1, ro. split; [exact Su|]. split; [exact K0|exact Y]. }
    destruct PU as (u & c & eb & lu & uo & Su & Cu & PU).
    pose proof (loop_gates n cst lu u c eb uo ll v ks ib bits Su Cu PU PB) as G. rewrite !app_length, LB, L2, L4, X5, X5'. cbn [length].
    rewrite (G _ (mk_carried (v_keys v0) (v_index v0) (v_entropy v0) (v_max v0)) _ _ _ NE F K0 X3), (G _ (mk_carried (v_keys v0') (v_index v0') (v_entropy v0') (v_max v0')) _ _ _ NE' F' K0' X3'). 
    assert ((length (vsu_epochs w) * (length lu + 6) < length (vsu_epochs w') * (length lu + 6))%nat) by (apply Nat.mul_lt_mono_pos_r; lia). lia.
  Qed.
End Gates.

(** ** The helper circuit *)
Lemma same_helper_384 s s' : Forall (fun o : list (option bool) => length o = 384%nat) s -> Forall (fun o : list (option bool) => length o = 384%nat) s' -> length s = length s' ->
  same (hash_to_bits_circuit s) (hash_to_bits_circuit s').
Proof.
  intros F F' L. apply same_helper. revert s' F' L. induction F as [|o s Lo _ IH]; intros s' F' L; destruct s' as [|o' s']; try discriminate L; [reflexivity|].
  inversion F'; subst. cbn [map]. f_equal; [congruence|]. apply IH; [assumption|injection L as L; exact L].
Qed.
Lemma helper_inputs s inputs : Forall (fun o : list (option bool) => length o = 384%nat) s -> holds (hash_to_bits_circuit s) inputs -> length inputs = count (length s).
Proof.
  intros F X. apply circuit_holds in X as (ms & S & xs & a & b & E & -> & CA & CB). rewrite app_length, (carries_len _ _ CA), (carries_len _ _ CB), (expansions_len _ _ E).
  pose proof (forall2_len _ _ _ S) as LS. rewrite LS. unfold count. f_equal. f_equal. f_equal.
  assert (FM : Forall (fun m : bytes => length m = 48%nat) ms).
  { clear - F S. revert F. induction S as [|o m s ms [L _] _ IH]; intros F; constructor; inversion F; subst; [lia|auto]. }
  rewrite (flat_len ms 48 FM). unfold bytes, byte in *. lia.
Qed.
Section HelperInstance.
  Context {E1 E2 : grp} (gen2 : E2) (coords_of : E2 -> coords) (pedersen : bytes -> result bytes).
  Lemma helper_fits (ts : list (transition E1 E2)) shape k : (forall m d, pedersen m = Ok d -> length d = 48%nat) -> helper_messages gen2 coords_of pedersen ts = Ok shape ->
    (same (hash_to_bits_circuit (hash_to_bits_empty k)) (hash_to_bits_circuit shape) <-> length ts = k) /\
    (forall i i', holds (hash_to_bits_circuit (hash_to_bits_empty k)) i -> holds (hash_to_bits_circuit shape) i' -> (length i = length i' <-> length ts = k)).
  Proof.
    intros HL M. destruct (messages_384 gen2 coords_of pedersen ts shape HL M) as [F L].
    assert (LE : length (hash_to_bits_empty k) = k) by (unfold hash_to_bits_empty; apply repeat_length).
    assert (X : forall i i', holds (hash_to_bits_circuit (hash_to_bits_empty k)) i -> holds (hash_to_bits_circuit shape) i' -> (length i = length i' <-> length ts = k)).
    { intros i i' I I'. apply (helper_inputs _ _ (empty_384 k)) in I. apply (helper_inputs _ _ F) in I'. rewrite I, I', LE, L. split; [|intros ->; reflexivity].
      intros E. symmetry. apply count_inj, E. }
    split; [|exact X]. split.
    - intros S. destruct (instance_complete gen2 coords_of pedersen ts shape HL M) as (ds & ms & i & a & b & xs & _ & _ & P & _). apply prover_holds in P.
      apply (X i i); [|exact P|reflexivity]. apply (same_holds _ _ S), P.
    - intros E. apply same_helper_384; [apply empty_384|exact F|]. rewrite LE, L. symmetry. exact E.
  Qed.
End HelperInstance.

Lemma empty_sizes {E1 E2 : grp} {P V} (d : P) n k m (vk : option V) : Z.of_nat n < 2 ^ 32 -> (0 < k)%nat ->
  sizes n (validator_set_update_empty (S := E1) (K := E2) d n k m vk) /\ length (vsu_epochs (validator_set_update_empty (S := E1) (K := E2) d n k m vk)) = k.
Proof.
  intros L K. unfold sizes, validator_set_update_empty, epoch_data_empty, as_u32. cbn [vsu_initial vsu_num_validators vsu_epochs ed_keys].
  rewrite Z.mod_small, !repeat_length by lia. repeat split.
  - eapply Z.lt_trans; [exact L|]. reflexivity.
  - destruct k; [lia|discriminate].
  - apply Forall_forall. intros u U. apply repeat_spec in U. subst u. unfold shape, single_update_empty, epoch_data_empty. cbn [su_data su_bitmap ed_keys]. rewrite !repeat_length. auto.
Qed.
Lemma dims_sizes {E1 E2 : grp} {H} n k b (w : validator_set_update E1 E2 H) : Z.of_nat n < p -> (0 < k)%nat -> dims w = mk_dims n (Z.of_nat n) (repeat (n, n) k) b -> sizes n w.
Proof.
  intros L K D. assert (D1 := f_equal dim_initial D). assert (D2 := f_equal dim_validators D). assert (D3 := f_equal dim_epochs D). clear D. cbn [dims dim_initial dim_validators dim_epochs] in *.
  split; [exact D2|]. split; [exact L|]. split; [destruct (vsu_epochs w); [destruct k; [lia|discriminate D3]|discriminate]|]. split; [exact D1|].
  apply Forall_forall. intros u U. apply (in_map (fun u => (length (ed_keys (su_data u)), length (su_bitmap u)))) in U. rewrite D3 in U. apply repeat_spec in U. injection U as U1 U2. split; assumption.
Qed.
