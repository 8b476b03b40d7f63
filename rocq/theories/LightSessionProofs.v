(** Proofs for C79. *)
From Verif Require Import Base Constants Group Field Curve BitsModel EncodingModel EncodingSpec HasherModel PointModel HashCurveModel HashCurveSpec CodecSpec
  Circuit GadgetSpec HashGadgetModel HashGadgetSpec HashGadgetNative EpochCircuitModel EpochSpec EpochCircuitSpec ProverModel ProverSpec FfiModel FfiSpec
  HelperModel SetupModel ShapeSpec LightSpec CurveGroups CurvesSpec OrderSpec TwistSpec SecretSpec KnowledgeSpec PropKnowledge LightSessionSpec.

Lemma same_key_pair P P' K : same_key g2_of P K -> same_key g2_of P' K ->
  P = P' \/ (P = gn P' /\ exists K, (P = g2_of K \/ P' = g2_of K) /\ undetermined (snd (g2_coords (g2_neg K)))).
Proof.
  intros [A|[U A]] [B|[U' B]]; subst; auto; right.
  - rewrite g2_of_neg, gn_gn. split; [reflexivity|]. exists K. auto.
  - rewrite g2_of_neg. split; [reflexivity|]. exists K. auto.
Qed.
Lemma same_keys_pair l l' ks : Forall2 (same_key g2_of) l ks -> Forall2 (same_key g2_of) l' ks ->
  Forall2 (fun P P' => P = P' \/ (P = gn P' /\ exists K, (P = g2_of K \/ P' = g2_of K) /\ undetermined (snd (g2_coords (g2_neg K))))) l l'.
Proof.
  intros H. revert l'. induction H as [|P K l ks A H IH]; intros l' H'; inversion H'; subst; constructor; [|apply IH; assumption].
  eapply same_key_pair; eassumption.
Qed.
Lemma shows_meet h h' b : shows_last g2_of h b -> shows_first g2_of h' b -> same_committee h h'.
Proof.
  intros (I & M & _ & K) (I' & M' & _ & K'). split; [congruence|]. split; [congruence|]. exact (same_keys_pair _ _ _ K K').
Qed.
Lemma exists_or_all {A} (P Q : A -> Prop) l : Forall (fun x => P x \/ Q x) l -> Exists P l \/ Forall Q l.
Proof.
  induction 1 as [|x l H _ IH]; [right; constructor|]. destruct H as [H|H]; [left; constructor; exact H|].
  destruct IH as [IH|IH]; [left; apply Exists_cons_tl, IH|right; constructor; assumption].
Qed.

Lemma last_cons {A} (x : A) l : forall d, List.last (x :: l) d = List.last l x.
Proof.
  revert x. induction l as [|y l IH]; intros x d; [reflexivity|]. change (List.last (x :: y :: l) d) with (List.last (y :: l) d). rewrite (IH y d), (IH y x). reflexivity.
Qed.
Lemma latest_cons first pf b calls : latest first ((pf, b) :: calls) = latest b calls.
Proof. unfold latest. cbn [map snd]. apply last_cons. Qed.

Section Sessions.
  Context {proof : Type} (read : epoch_block_ffi -> result (epoch_block g2_point)) (pd : bytes -> result proof) (extract : proof -> list Z -> list cell).
  Context (accepts : bytes -> epoch_block_ffi -> epoch_block_ffi -> Prop) (good : epoch_block_ffi -> Prop) (k : nat) (c : Z) (hashes : header g2_curve -> g1_curve -> Prop).
  Context (one : forall pf a b, good a -> good b -> accepts pf a b -> exists x, from_call read pd extract pf a b x /\ step_in_assignment k x /\ (step_collides x \/ step_shows c hashes x)).
  Lemma all_steps calls : forall first, good first -> Forall good (map snd calls) -> session accepts first calls ->
    exists l, from_session read pd extract first calls l /\ Forall (step_in_assignment k) l /\ Forall (fun x => step_collides x \/ step_shows c hashes x) l.
  Proof.
    induction calls as [|[pf b] calls IH]; intros first G GS S; [exists []; repeat split; constructor|].
    destruct S as [A S]. inversion GS as [|y l Gb GS' E]; subst y l.
    destruct (one pf first b G Gb A) as (x & F & I & X). destruct (IH b Gb GS' S) as (l & FS & IS & XS).
    exists (x :: l). split; [split; assumption|]. split; constructor; assumption.
  Qed.
  Lemma relay calls : forall first l, from_session read pd extract first calls l -> Forall (step_shows c hashes) l -> relayed l.
  Proof.
    induction calls as [|[pf b] calls IH]; intros first [|x l] F H; try (destruct F; fail); [exact I|].
    destruct F as [(_ & B & _) F]. inversion H as [|y l' X H' E]; subst y l'. specialize (IH b l F H').
    destruct l as [|y l]; [exact I|]. destruct calls as [|[pf' b'] calls]; [destruct F|]. destruct F as [(B' & _) _].
    assert (E : s_last x = s_first y) by congruence. cbn [relayed]. split; [exact E|]. split; [|exact IH].
    inversion H' as [|z l' Y _ E']; subst z l'. apply (shows_meet _ _ (s_last x)); [apply X|rewrite E; apply Y].
  Qed.
  Definition total (l : list step) : nat := fold_right (fun x t => (length (s_headers x) + t)%nat) 0%nat l.
  Lemma total_index calls : forall first l f, from_session read pd extract first calls l -> Forall (step_shows c hashes) l -> Forall (step_in_assignment k) l -> read first = Ok f -> 0 <= eb_index f < 2 ^ 16 ->
    exists g, read (latest first calls) = Ok g /\ eb_index g = (eb_index f + Z.of_nat (total l)) mod 2 ^ 16 /\ (length calls <= total l <= length calls * k)%nat.
  Proof.
    induction calls as [|[pf b] calls IH]; intros first l f F H I R B; destruct l as [|x l]; try (destruct F; fail).
    - exists f. split; [exact R|]. cbn [total fold_right length Z.of_nat]. rewrite Z.add_0_r, Z.mod_small by exact B. split; [reflexivity|]. cbn. lia.
    - destruct F as [(A & B' & _) F]. inversion H as [|y l' X H' E]; subst y l'. inversion I as [|y l' Y I' E]; subst y l'.
      rewrite R in A. assert (f = s_first x) by congruence. subst f. destruct X as (_ & _ & X & _).
      destruct (IH b l (s_last x) F H' I' B') as (g & G & GI & L1 & L2); [rewrite X; apply Z.mod_pos_bound; lia|].
      exists g. split; [|split].
      + rewrite latest_cons. exact G.
      + rewrite GI, X. cbn [total fold_right]. fold (total l). rewrite Nat2Z.inj_add, Zplus_mod_idemp_l. f_equal. lia.
      + destruct Y as (Y & _). cbn [total fold_right length]. fold (total l). unfold s_headers in *. rewrite app_length in *. cbn [length] in *. lia.
  Qed.
End Sessions.

Section Light.
  Context (GT : grp) (e : g1_curve -> g2_curve -> GT) (sqrt : fq -> option fq) (ped : bytes -> option fq) (compat debug : bool).
  Context (P V key_e key_h R : Type) (vk_of : key_h -> V) (default_proof : P) (helper_verify : P * V -> list (list bool) -> bool).
  Context (sqrt2 : fq2 -> option fq2) (vkey proof : Type) (vkd : bytes -> result vkey) (pd : bytes -> result proof) (vp : vkey -> proof -> list Z -> result bool).
  Context (vk_of_e : key_e -> vkey) (extract : key_e -> proof -> list Z -> list cell).
  Notation circuit pin := (generate_constraints e g1_gen g2_gen g1_of g2_of g1_to g2_to sqrt ped compat pin debug helper_verify).
  Notation verify_c := (ffi_verify sqrt2 g2_test vkd pd vp blake2_out).
  Notation hashes := (hashes_to g1_of (native_ped ped) compat).
  Notation read := (epoch_block_try_from sqrt2 g2_test).
  Lemma one_call : exists c : Z, forall n k m rng hs vs q (rng' : R) vk,
    curve_pairing e -> sqrt_spec q2mul sqrt2 -> Z.of_nat n < 2 ^ 32 -> (0 < k)%nat ->
    (forall w0 r0 key r1, vs w0 r0 = Val (key, r1) -> extractable (fun pr inputs => vp (vk_of_e key) pr inputs = Ok true) (circuit true w0) (extract key)) ->
    trusted_setup vk_of default_proof hs vs n k m rng false = Val (q, rng') -> vkd vk = Ok (vk_of_e (p_epochs q)) ->
    forall pf a b, c_block a -> c_block b -> verify_c vk pf a b = Returns true None ->
    exists x, from_call read pd (extract (p_epochs q)) pf a b x /\ step_in_assignment k x /\ (step_collides x \/ step_shows c hashes x).
  Proof.
    destruct (C77_known GT e sqrt ped compat debug P V key_e key_h R vk_of default_proof helper_verify sqrt2 vkey proof vkd pd vp vk_of_e extract) as [c K].
    exists c. intros n k m rng hs vs q rng' vk CP SS N K0 EX TS VK pf a b CA CB X.
    destruct (K n k m rng hs vs q rng' vk pf a b CP SS N K0 EX TS VK CA CB X) as (f & l & pr & inputs & h0 & hl & between & s & d & EF & EL & EP & EI & L & CH & CS & Y).
    exists (mk_step f l h0 between hl s d (extract (p_epochs q) pr inputs)). split; [|split].
    - split; [exact EF|]. split; [exact EL|]. exists pr, inputs. split; [exact EP|]. split; [exact EI|reflexivity].
    - split; [exact L|]. split; [exact CH|exact CS].
    - destruct Y as [Y|[Y|Y]]; [left; left; exact Y|left; right; exact Y|right; exact Y].
  Qed.
  Lemma light_session : exists c : Z, forall n k m rng hs vs q (rng' : R) vk first calls,
    curve_pairing e -> sqrt_spec q2mul sqrt2 -> Z.of_nat n < 2 ^ 32 -> (0 < k)%nat ->
    (forall w0 r0 key r1, vs w0 r0 = Val (key, r1) -> extractable (fun pr inputs => vp (vk_of_e key) pr inputs = Ok true) (circuit true w0) (extract key)) ->
    trusted_setup vk_of default_proof hs vs n k m rng false = Val (q, rng') -> vkd vk = Ok (vk_of_e (p_epochs q)) ->
    c_block first -> Forall c_block (map snd calls) -> session (fun pf a b => verify_c vk pf a b = Returns true None) first calls ->
    exists steps, from_session read pd (extract (p_epochs q)) first calls steps /\ Forall (step_in_assignment k) steps /\
      (Exists step_collides steps \/ (Forall (step_shows c hashes) steps /\ relayed steps)).
  Proof.
    destruct one_call as [c O]. exists c. intros n k m rng hs vs q rng' vk first calls CP SS N K0 EX TS VK CF CS S.
    destruct (all_steps read pd (extract (p_epochs q)) _ c_block k c hashes (O n k m rng hs vs q rng' vk CP SS N K0 EX TS VK) calls first CF CS S) as (l & F & I & X).
    exists l. split; [exact F|]. split; [exact I|]. apply exists_or_all in X as [X|X]; [left; exact X|right]. split; [exact X|].
    exact (relay read pd (extract (p_epochs q)) c hashes calls first l F X).
  Qed.
  Lemma read_index a f : read a = Ok f -> eb_index f = ef_index a.
  Proof.
    unfold epoch_block_try_from. destruct (read_pubkeys sqrt2 g2_test (ef_pubkeys a) (ef_pubkeys_num a)) as [ks|er|]; cbn [rbind]; intros E; [|discriminate E|discriminate E].
    assert (E' := f_equal (fun x => match x with Ok b => eb_index b | _ => 0 end) E). cbn [eb_index] in E'. symmetry. exact E'.
  Qed.
  Lemma light_progress : forall n k m rng hs vs q (rng' : R) vk first calls,
    curve_pairing e -> sqrt_spec q2mul sqrt2 -> Z.of_nat n < 2 ^ 32 -> (0 < k)%nat ->
    (forall w0 r0 key r1, vs w0 r0 = Val (key, r1) -> extractable (fun pr inputs => vp (vk_of_e key) pr inputs = Ok true) (circuit true w0) (extract key)) ->
    trusted_setup vk_of default_proof hs vs n k m rng false = Val (q, rng') -> vkd vk = Ok (vk_of_e (p_epochs q)) ->
    c_block first -> Forall c_block (map snd calls) -> session (fun pf a b => verify_c vk pf a b = Returns true None) first calls ->
    exists steps, from_session read pd (extract (p_epochs q)) first calls steps /\ Forall (step_in_assignment k) steps /\
      (Exists step_collides steps \/ exists t, (length calls <= t <= length calls * k)%nat /\ ef_index (latest first calls) = (ef_index first + Z.of_nat t) mod 2 ^ 16).
  Proof.
    destruct light_session as [c O]. intros n k m rng hs vs q rng' vk first calls CP SS N K0 EX TS VK CF CS S.
    destruct (O n k m rng hs vs q rng' vk first calls CP SS N K0 EX TS VK CF CS S) as (l & F & I & X).
    exists l. split; [exact F|]. split; [exact I|]. destruct X as [X|[X _]]; [left; exact X|right].
    destruct calls as [|[pf b] calls].
    - exists 0%nat. split; [cbn; lia|]. cbn [latest map List.last Z.of_nat]. rewrite Z.add_0_r, Z.mod_small by apply CF. reflexivity.
    - destruct l as [|x l]; [destruct F|]. pose proof F as [(A & _) _].
      destruct (total_index read pd (extract (p_epochs q)) k c hashes ((pf, b) :: calls) first (x :: l) (s_first x) F X I A) as (g & G & E & L).
      { rewrite (read_index _ _ A). apply CF. }
      exists (total (x :: l)). split; [exact L|]. rewrite <- (read_index _ _ G), E, (read_index _ _ A). reflexivity.
  Qed.
  Lemma light_no_return : forall n k m rng hs vs q (rng' : R) vk first calls,
    curve_pairing e -> sqrt_spec q2mul sqrt2 -> Z.of_nat n < 2 ^ 32 -> (0 < k)%nat ->
    (forall w0 r0 key r1, vs w0 r0 = Val (key, r1) -> extractable (fun pr inputs => vp (vk_of_e key) pr inputs = Ok true) (circuit true w0) (extract key)) ->
    trusted_setup vk_of default_proof hs vs n k m rng false = Val (q, rng') -> vkd vk = Ok (vk_of_e (p_epochs q)) ->
    c_block first -> Forall c_block (map snd calls) -> session (fun pf a b => verify_c vk pf a b = Returns true None) first calls ->
    calls <> [] -> Z.of_nat (length calls) * Z.of_nat k < 2 ^ 16 -> ef_index (latest first calls) = ef_index first ->
    exists steps, from_session read pd (extract (p_epochs q)) first calls steps /\ Forall (step_in_assignment k) steps /\ Exists step_collides steps.
  Proof.
    intros n k m rng hs vs q rng' vk first calls CP SS N K0 EX TS VK CF CS S NE B E.
    destruct (light_progress n k m rng hs vs q rng' vk first calls CP SS N K0 EX TS VK CF CS S) as (l & F & I & [X|(t & L & X)]); [exists l; auto|exfalso].
    rewrite E in X. destruct CF as [CI _]. assert (1 <= length calls)%nat by (destruct calls; [destruct NE; reflexivity|cbn; lia]).
    assert (T : 1 <= Z.of_nat t < 2 ^ 16) by nia. clear - X CI T.
    rewrite Z.mod_eq in X by lia. assert (0 <= (ef_index first + Z.of_nat t) / 2 ^ 16) by (apply Z.div_pos; lia).
    assert ((ef_index first + Z.of_nat t) / 2 ^ 16 < 2) by (apply Z.div_lt_upper_bound; lia). nia.
  Qed.
End Light.

Lemma unseen sqrt2 test {vkey proof} (vkd : bytes -> result vkey) (pd : bytes -> result proof) vp out vk pf a a' b b' :
  differ_unseen_first a a' -> differ_unseen_last b b' ->
  ffi_verify sqrt2 test vkd pd vp out vk pf a b = ffi_verify sqrt2 test vkd pd vp out vk pf a' b'.
Proof.
  destruct a as [i r1 e p ks n mn mv], a' as [i' r1' e' p' ks' n' mn' mv']. destruct b as [j r2 g o ls m nn nv], b' as [j' r2' g' o' ls' m' nn' nv'].
  unfold differ_unseen_first, differ_unseen_last. cbn [ef_index ef_max_non_signers ef_max_validators ef_parent_entropy ef_epoch_entropy ef_pubkeys ef_pubkeys_num].
  intros (-> & -> & -> & -> & -> & ->) (-> & -> & -> & -> & -> & ->). unfold ffi_verify, epoch_block_try_from.
  cbn [ef_index ef_round ef_max_non_signers ef_max_validators ef_parent_entropy ef_epoch_entropy ef_pubkeys ef_pubkeys_num].
  destruct (read_pubkeys sqrt2 test ks' n') as [K|er|]; cbn [rbind]; [|reflexivity|reflexivity].
  destruct (read_pubkeys sqrt2 test ls' m') as [L|er|]; cbn [rbind]; [|reflexivity|reflexivity]. reflexivity.
Qed.
