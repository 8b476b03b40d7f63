From Coq Require Import Permutation Znumtheory.
From Verif Require Import Base Constants Prime Group BlsModel BlsSpec.
Open Scope Z_scope.

Section Proofs.
Context {pr : pairing}.
Notation G1 := (G1 pr).
Notation G2 := (G2 pr).
Implicit Types h : hasher pr.
Implicit Types (pk : G2) (sig s H : G1) (Hs ss : list G1) (pks : list G2).

Lemma total_gsum {G : grp} (l : list G) : total l = gsum l.
Proof. induction l as [|x l IH]; [reflexivity|]. rewrite gsum_cons, <- IH. reflexivity. Qed.

Lemma dlog_exists pk : exists k, is_dlog k pk.
Proof. apply (G2_cyclic pr pk). Qed.

Lemma smul_dlog_irrel k k' pk (H : G1) : is_dlog k pk -> is_dlog k' pk -> smul k H = smul k' H.
Proof.
  unfold is_dlog. intros -> E. symmetry in E.
  apply smul_inj_scalar in E; [|apply G2_ord|apply gen2_nz].
  rewrite <- (smul_mod_ord H k'), E by apply G1_ord_all. symmetry; apply smul_mod_ord, G1_ord_all.
Qed.

Lemma signature_on_unique H pk s s' : signature_on H pk s -> signature_on H pk s' -> s = s'.
Proof. intros [k [D ->]] [k' [D' ->]]. eapply smul_dlog_irrel; eassumption. Qed.

Lemma signature_on_exists H pk : exists s, signature_on H pk s.
Proof. destruct (dlog_exists pk) as [k D]. exists (smul k H), k. split; [assumption|reflexivity]. Qed.

Lemma pop_cons (P : G1) (Q : G2) l : product_of_pairings ((P, Q) :: l) = (e P Q + product_of_pairings l)%G.
Proof. unfold product_of_pairings. cbn [map]. apply gsum_cons. Qed.

Lemma signatures_on_exists Hs pks : length Hs = length pks -> exists ss, signatures_on Hs pks ss.
Proof.
  revert pks. induction Hs as [|H Hs IH]; intros [|pk pks] E; try discriminate.
  - exists []; constructor.
  - injection E as E. destruct (IH pks E) as [ss Hss]. destruct (signature_on_exists H pk) as [s Hs'].
    exists (s :: ss). constructor; assumption.
Qed.

Lemma product_combine Hs pks ss : signatures_on Hs pks ss ->
  product_of_pairings (combine Hs pks) = e (total ss) gen2.
Proof.
  induction 1 as [|H pk s Hs pks ss [k [D E]] HS IH].
  - cbn. symmetry. apply e_0_l.
  - cbn [combine total fold_right]. rewrite pop_cons, IH. unfold total. rewrite e_add_l. f_equal.
    rewrite E, D, e_smul_l, e_smul_r. reflexivity.
Qed.

Lemma pairing_is_one_iff sig Hs pks ss : signatures_on Hs pks ss ->
  pairing_is_one ((sig, gn gen2) :: combine Hs pks) = true <-> sig = total ss.
Proof.
  intros H. unfold pairing_is_one. rewrite geqb_spec, pop_cons, (product_combine _ _ _ H), e_neg_r.
  split; intros E.
  - apply e_gen2_inj. rewrite ga_comm in E. apply (proj1 (gsub_0 _ _)) in E. symmetry; exact E.
  - rewrite E. apply gn_l.
Qed.

Lemma pairing_two_iff H pk sig : pairing_is_one [(sig, gn gen2); (H, pk)] = true <-> signature_on H pk sig.
Proof.
  destruct (signature_on_exists H pk) as [s Hs].
  pose proof (pairing_is_one_iff sig [H] [pk] [s] ltac:(repeat constructor; assumption)) as E.
  cbn [combine total fold_right] in E. rewrite ga_0_r in E. rewrite E. split; intros X.
  - subst; assumption.
  - eapply signature_on_unique; eassumption.
Qed.

(** ** C01 *)
Lemma sign_message_outcome h sk d m x :
  outcome (sign_message h sk d m x) = rbind (h d m x) (fun H => Ok (smul sk H)).
Proof. unfold sign_message, do_hash, outcome, bind. destruct (h d m x); reflexivity. Qed.

Lemma verify_sig_outcome h pk d m x sig :
  outcome (verify_sig h pk d m x sig) =
  rbind (h d m x) (fun H => if pairing_is_one [(sig, gn gen2); (H, pk)] then Ok tt else Err VerificationFailed).
Proof.
  unfold verify_sig, do_hash, outcome, bind. destruct (h d m x); [|reflexivity|reflexivity].
  cbn [rbind]. destruct (pairing_is_one _); reflexivity.
Qed.

Lemma sign_message_verify h sk d m x sig :
  outcome (sign_message h sk d m x) = Ok sig -> outcome (verify_sig h (to_public sk) d m x sig) = Ok tt.
Proof.
  rewrite sign_message_outcome, verify_sig_outcome. destruct (h d m x) as [H| |]; try discriminate.
  cbn [rbind]. intros E; injection E as <-.
  assert (E : pairing_is_one [(smul sk H, gn gen2); (H, to_public sk)] = true).
  { apply pairing_two_iff. exists sk. split; reflexivity. }
  rewrite E. reflexivity.
Qed.

Lemma sign_message_fails h sk d m x err :
  (outcome (sign_message h sk d m x) = Err err <-> h d m x = Err err) /\
  (outcome (sign_message h sk d m x) = Panic <-> h d m x = Panic).
Proof.
  rewrite sign_message_outcome. destruct (h d m x); cbn [rbind];
  (split; split; intros E; first [discriminate | congruence]).
Qed.

(** ** C02 *)
Lemma verify_sig_iff h pk d m x sig :
  outcome (verify_sig h pk d m x sig) = Ok tt <-> valid_in h d m x pk sig.
Proof.
  rewrite verify_sig_outcome. unfold valid_in. destruct (h d m x) as [H|err|]; cbn [rbind].
  - destruct (pairing_is_one _) eqn:E.
    + split; intros _; [|reflexivity]. exists H. split; [reflexivity|apply pairing_two_iff; assumption].
    + split; [discriminate|]. intros [H' [EH S]]. injection EH as <-.
      apply pairing_two_iff in S. congruence.
  - split; [discriminate|]. intros [H' [EH _]]; discriminate.
  - split; [discriminate|]. intros [H' [EH _]]; discriminate.
Qed.

Lemma verify_sig_exact h pk d m x H : h d m x = Ok H ->
  exists sig0, signature_on H pk sig0 /\
    forall sig, (sig = sig0 -> outcome (verify_sig h pk d m x sig) = Ok tt) /\
                (sig <> sig0 -> outcome (verify_sig h pk d m x sig) = Err VerificationFailed).
Proof.
  intros EH. destruct (signature_on_exists H pk) as [s Hs]. exists s. split; [assumption|].
  intros sig. rewrite verify_sig_outcome, EH. cbn [rbind]. split.
  - intros ->. apply pairing_two_iff in Hs. rewrite Hs. reflexivity.
  - intros Hne. destruct (pairing_is_one _) eqn:E; [|reflexivity].
    apply pairing_two_iff in E. exfalso; apply Hne. eapply signature_on_unique; eassumption.
Qed.

Lemma verify_sig_hash_error h pk d m x sig :
  (forall err, h d m x = Err err -> outcome (verify_sig h pk d m x sig) = Err err) /\
  (h d m x = Panic -> outcome (verify_sig h pk d m x sig) = Panic).
Proof. rewrite verify_sig_outcome. split; intros; destruct (h d m x); try discriminate; cbn; congruence. Qed.

(** ** C03 *)
Lemma sign_queries h sk m x : queries (sign h sk m x) = [(SIG_DOMAIN, m, x)].
Proof. unfold sign, sign_message, do_hash, queries, bind. destruct (h _ m x); reflexivity. Qed.
Lemma sign_pop_queries h sk m : queries (sign_pop h sk m) = [(POP_DOMAIN, m, [])].
Proof. unfold sign_pop, sign_message, do_hash, queries, bind. destruct (h _ m []); reflexivity. Qed.
Lemma verify_queries h pk m x sig : queries (verify h pk m x sig) = [(SIG_DOMAIN, m, x)].
Proof.
  unfold verify, verify_sig, do_hash, queries, bind. destruct (h _ m x); try reflexivity.
  destruct (pairing_is_one _); reflexivity.
Qed.
Lemma verify_pop_queries h pk m sig : queries (verify_pop h pk m sig) = [(POP_DOMAIN, m, [])].
Proof.
  unfold verify_pop, verify_sig, do_hash, queries, bind. destruct (h _ m []); try reflexivity.
  destruct (pairing_is_one _); reflexivity.
Qed.

Lemma smul_cancel_unit (G : grp) (P Q : G) k : smul r P = gz -> smul r Q = gz -> ~ (r | k) ->
  smul k P = smul k Q -> P = Q.
Proof.
  intros HP HQ Hk E.
  destruct (rel_prime_bezout _ _ (prime_rel_prime _ prime_r _ Hk)) as [u v Huv].
  rewrite <- (smul_1 P), <- (smul_1 Q), <- Huv, !smul_add, !smul_mul, HP, HQ, E. reflexivity.
Qed.

Lemma cross_domain h sk m x sig m' :
  ~ (r | sk) -> outcome (sign h sk m x) = Ok sig ->
  (outcome (verify_pop h (to_public sk) m' sig) = Ok tt <->
   exists H, h SIG_DOMAIN m x = Ok H /\ h POP_DOMAIN m' [] = Ok H).
Proof.
  intros Hsk Hs. unfold sign in Hs. rewrite sign_message_outcome in Hs.
  destruct (h SIG_DOMAIN m x) as [H| |]; try discriminate. injection Hs as <-.
  unfold verify_pop. rewrite verify_sig_iff. unfold valid_in. split.
  - intros [H' [EH' [k [D E]]]]. exists H. split; [reflexivity|].
    assert (E' : smul sk H = smul sk H').
    { rewrite E. symmetry. apply (smul_dlog_irrel _ _ (to_public sk)); [reflexivity|assumption]. }
    apply smul_cancel_unit in E'; try apply G1_ord_all; try assumption. subst; assumption.
  - intros [H' [E1 E2]]. injection E1 as <-. exists H. split; [assumption|].
    exists sk. split; reflexivity.
Qed.

(** ** C04 *)
Lemma signature_on_total H pks ss : signatures_on (repeat H (length pks)) pks ss ->
  signature_on H (total pks) (total ss).
Proof.
  revert ss. induction pks as [|pk pks IH]; intros ss HS; cbn [length repeat] in HS; inversion HS; subst.
  - exists 0. split; reflexivity.
  - cbn [total fold_right]. destruct (IH _ ltac:(eassumption)) as [k [D E]].
    match goal with X : signature_on _ _ _ |- _ => destruct X as [k' [D' E']] end.
    unfold is_dlog in *. exists (k' + k)%Z. unfold is_dlog. rewrite !smul_add. unfold total in *.
    rewrite D', D, E', E. split; reflexivity.
Qed.

Lemma aggregate_same_message h d m x H pks ss : h d m x = Ok H ->
  signatures_on (repeat H (length pks)) pks ss ->
  forall sig, outcome (verify_sig h (aggregate_pk pks) d m x sig) = Ok tt <-> sig = total ss.
Proof.
  intros EH HS sig. unfold aggregate_pk. rewrite <- total_gsum, verify_sig_iff.
  pose proof (signature_on_total _ _ _ HS) as S. split.
  - intros [H' [EH' S']]. assert (H' = H) by congruence; subst. eapply signature_on_unique; eassumption.
  - intros ->. exists H. split; assumption.
Qed.

Lemma signatures_on_map H sks :
  signatures_on (repeat H (length (map (to_public (pr := pr)) sks))) (map to_public sks) (map (fun sk => smul sk H) sks).
Proof.
  induction sks as [|sk sks IH]; cbn [map length repeat]; constructor; [|assumption].
  exists sk. split; reflexivity.
Qed.

Lemma mapM_sign h sks m x sigs : sks <> [] ->
  mapM (fun sk => outcome (sign h sk m x)) sks = Ok sigs ->
  exists H, h SIG_DOMAIN m x = Ok H /\ sigs = map (fun sk => smul sk H) sks.
Proof.
  intros Hne. revert sigs. induction sks as [|sk sks IH]; intros sigs E; [congruence|].
  cbn [mapM] in E. unfold sign in E at 1. rewrite sign_message_outcome in E.
  destruct (h SIG_DOMAIN m x) as [H| |] eqn:EH; try discriminate. cbn [rbind] in E.
  exists H. split; [reflexivity|].
  destruct sks as [|sk' sks].
  - cbn in E. injection E as <-. reflexivity.
  - destruct (mapM _ (sk' :: sks)) as [ss| |] eqn:Em; try discriminate. cbn [rbind] in E. injection E as <-.
    destruct (IH ltac:(discriminate) ss eq_refl) as [H' [E1 ->]]. assert (H' = H) by congruence. subst. reflexivity.
Qed.

Lemma aggregate_verifies h sks m x sigs :
  mapM (fun sk => outcome (sign h sk m x)) sks = Ok sigs ->
  is_ok (h SIG_DOMAIN m x) = true ->
  outcome (verify h (aggregate_pk (map to_public sks)) m x (aggregate_sig sigs)) = Ok tt.
Proof.
  intros Es Hok. destruct (h SIG_DOMAIN m x) as [H| |] eqn:EH; try discriminate.
  assert (sigs = map (fun sk => smul sk H) sks).
  { destruct sks as [|sk sks]; [cbn in Es; injection Es as <-; reflexivity|].
    destruct (mapM_sign h (sk :: sks) m x sigs ltac:(discriminate) Es) as [H' [E1 E2]].
    assert (H' = H) by congruence. subst H'. assumption. }
  subst sigs. unfold verify. apply (aggregate_same_message h _ m x H _ _ EH (signatures_on_map H sks)).
  unfold aggregate_sig. rewrite <- total_gsum. reflexivity.
Qed.

Lemma aggregate_perm {G : grp} (l l' : list G) : Permutation l l' -> gsum l = gsum l'.
Proof. apply gsum_perm. Qed.

(** ** C05 *)
Lemma hash_all_spec h d ms :
  (exists Hs, hash_all h d ms = (map (fun '(m, x) => (d, m, x)) ms, Ok Hs) /\
     Forall2 (fun mx H => h d (fst mx) (snd mx) = Ok H) ms Hs) \/
  (exists ms1 m x ms2 Hs, ms = ms1 ++ (m, x) :: ms2 /\
     Forall2 (fun mx H => h d (fst mx) (snd mx) = Ok H) ms1 Hs /\
     ((exists err, h d m x = Err err /\
        hash_all h d ms = (map (fun '(m, x) => (d, m, x)) (ms1 ++ [(m, x)]), Err err)) \/
      (h d m x = Panic /\
        hash_all h d ms = (map (fun '(m, x) => (d, m, x)) (ms1 ++ [(m, x)]), Panic)))).
Proof.
  induction ms as [|[m x] ms IH].
  - left. exists []. split; [reflexivity|constructor].
  - destruct (h d m x) as [H|err|] eqn:EH.
    + destruct IH as [[Hs [E F]]|[ms1 [m' [x' [ms2 [Hs [Ems [F [[err [Eerr E]]|[Eerr E]]]]]]]]]].
      * left. exists (H :: Hs). cbn [hash_all]. unfold do_hash, bind. rewrite EH, E. cbn. rewrite app_nil_r.
        split; [reflexivity|]. constructor; assumption.
      * right. exists ((m, x) :: ms1), m', x', ms2, (H :: Hs).
        split; [rewrite Ems; reflexivity|]. split; [constructor; assumption|].
        left. exists err. split; [assumption|]. cbn [hash_all]. unfold do_hash, bind. rewrite EH, E. reflexivity.
      * right. exists ((m, x) :: ms1), m', x', ms2, (H :: Hs).
        split; [rewrite Ems; reflexivity|]. split; [constructor; assumption|].
        right. split; [assumption|]. cbn [hash_all]. unfold do_hash, bind. rewrite EH, E. reflexivity.
    + right. exists [], m, x, ms, []. split; [reflexivity|]. split; [constructor|].
      left. exists err. split; [assumption|]. cbn [hash_all]. unfold do_hash, bind. rewrite EH. reflexivity.
    + right. exists [], m, x, ms, []. split; [reflexivity|]. split; [constructor|].
      right. split; [assumption|]. cbn [hash_all]. unfold do_hash, bind. rewrite EH. reflexivity.
Qed.

Lemma batch_verify_uneven h sig pks d ms : length pks <> length ms ->
  batch_verify h sig pks d ms = ([], Err UnevenNumKeysMessages).
Proof.
  intros Hne. unfold batch_verify. destruct (Nat.eqb_spec (length pks) (length ms)); [contradiction|reflexivity].
Qed.

Lemma bvh_outcome sig pks Hs ss : signatures_on Hs pks ss ->
  batch_verify_hashes sig pks Hs =
  ([], if geqb sig (total ss) then Ok tt else Err VerificationFailed).
Proof.
  intros S. unfold batch_verify_hashes.
  assert (E : length pks = length Hs) by (clear -S; induction S; cbn; congruence).
  rewrite E, Nat.eqb_refl. cbn [negb].
  destruct (geqb sig (total ss)) eqn:Eq.
  - apply geqb_spec in Eq. apply (pairing_is_one_iff sig Hs pks ss S) in Eq. rewrite Eq. reflexivity.
  - destruct (pairing_is_one _) eqn:Ep; [|reflexivity].
    apply (pairing_is_one_iff sig Hs pks ss S) in Ep. apply geqb_spec in Ep. congruence.
Qed.

Lemma batch_verify_ok_case h sig pks d ms Hs ss : 
  Forall2 (fun mx H => h d (fst mx) (snd mx) = Ok H) ms Hs ->
  signatures_on Hs pks ss ->
  batch_verify h sig pks d ms =
  (map (fun '(m, x) => (d, m, x)) ms, if geqb sig (total ss) then Ok tt else Err VerificationFailed).
Proof.
  intros F S.
  assert (E : length pks = length ms).
  { transitivity (length Hs).
    - clear -S; induction S; cbn; congruence.
    - clear -F; induction F; cbn; congruence. }
  unfold batch_verify. rewrite E, Nat.eqb_refl. cbn [negb].
  assert (Eh : hash_all h d ms = (map (fun '(m, x) => (d, m, x)) ms, Ok Hs)).
  { clear -F. induction F as [|[m x] H ms Hs E F IH]; [reflexivity|].
    cbn [hash_all fst snd] in *. unfold do_hash, bind. rewrite E, IH. cbn. rewrite app_nil_r. reflexivity. }
  rewrite Eh. unfold bind. rewrite (bvh_outcome sig pks Hs ss S), app_nil_r. reflexivity.
Qed.

Lemma batch_verify_hash_failure h sig pks d ms1 m x ms2 Hs :
  length pks = length (ms1 ++ (m, x) :: ms2) ->
  Forall2 (fun mx H => h d (fst mx) (snd mx) = Ok H) ms1 Hs ->
  (forall err, h d m x = Err err ->
   batch_verify h sig pks d (ms1 ++ (m, x) :: ms2) = (map (fun '(m, x) => (d, m, x)) (ms1 ++ [(m, x)]), Err err)) /\
  (h d m x = Panic ->
   batch_verify h sig pks d (ms1 ++ (m, x) :: ms2) = (map (fun '(m, x) => (d, m, x)) (ms1 ++ [(m, x)]), Panic)).
Proof.
  intros El F. unfold batch_verify. rewrite El, Nat.eqb_refl. cbn [negb]. split; intros.
  - assert (Eh : hash_all h d (ms1 ++ (m, x) :: ms2) = (map (fun '(m, x) => (d, m, x)) (ms1 ++ [(m, x)]), Err err)).
    { clear El. induction F as [|[m' x'] H' ms Hs' E F IH]; cbn [app hash_all map fst snd] in *; unfold do_hash, bind.
      - rewrite H. reflexivity.
      - rewrite E, IH. reflexivity. }
    rewrite Eh. reflexivity.
  - assert (Eh : hash_all h d (ms1 ++ (m, x) :: ms2) = (map (fun '(m, x) => (d, m, x)) (ms1 ++ [(m, x)]), Panic)).
    { clear El. induction F as [|[m' x'] H' ms Hs' E F IH]; cbn [app hash_all map fst snd] in *; unfold do_hash, bind.
      - rewrite H. reflexivity.
      - rewrite E, IH. reflexivity. }
    rewrite Eh. reflexivity.
Qed.

(** Acceptance in full. *)
Lemma batch_verify_iff h sig pks d ms :
  outcome (batch_verify h sig pks d ms) = Ok tt <->
  exists Hs ss, Forall2 (fun mx H => h d (fst mx) (snd mx) = Ok H) ms Hs /\
    signatures_on Hs pks ss /\ sig = total ss.
Proof.
  split.
  - intros H. unfold batch_verify in H.
    destruct (Nat.eqb_spec (length pks) (length ms)) as [E|]; [|discriminate]. cbn [negb] in H.
    destruct (hash_all_spec h d ms) as [[Hs [Eh F]]|[ms1 [m [x [ms2 [Hs [_ [_ [[err [_ Eh]]|[_ Eh]]]]]]]]]];
      rewrite Eh in H; try discriminate.
    assert (El : length Hs = length pks).
    { transitivity (length ms); [|congruence]. clear -F; induction F; cbn; congruence. }
    destruct (signatures_on_exists Hs pks El) as [ss S].
    exists Hs, ss. split; [assumption|]. split; [assumption|].
    unfold bind in H. rewrite (bvh_outcome sig pks Hs ss S) in H. cbn in H.
    destruct (geqb sig (total ss)) eqn:Eg; [|discriminate]. apply geqb_spec; assumption.
  - intros [Hs [ss [F [S ->]]]]. rewrite (batch_verify_ok_case h _ pks d ms Hs ss F S).
    rewrite geqb_refl. reflexivity.
Qed.

(** Reordering *)
Lemma split_triples h d (l : list (G2 * (bytes * bytes))) :
  forall Hs ss, Forall2 (fun mx H => h d (fst mx) (snd mx) = Ok H) (map snd l) Hs ->
  signatures_on Hs (map fst l) ss ->
  exists t : list (G2 * (bytes * bytes) * (G1 * G1)),
    map fst t = l /\ map (fun q => fst (snd q)) t = Hs /\ map (fun q => snd (snd q)) t = ss /\
    Forall (fun q => h d (fst (snd (fst q))) (snd (snd (fst q))) = Ok (fst (snd q)) /\
                     signature_on (fst (snd q)) (fst (fst q)) (snd (snd q))) t.
Proof.
  induction l as [|[pk mx] l IH]; cbn [map fst snd]; intros Hs ss F S.
  - inversion F; subst. inversion S; subst. exists []. repeat split; constructor.
  - inversion F as [|? H0 ? Hs0 EH F']; subst. inversion S as [|? ? s ? ? ss0 S1 S2]; subst.
    destruct (IH _ _ F' S2) as [t [E1 [E2 [E3 Ft]]]].
    exists ((pk, mx, (H0, s)) :: t). cbn [map fst snd]. subst. repeat split.
    constructor; [split; assumption|assumption].
Qed.

Lemma join_triples h d (t : list (G2 * (bytes * bytes) * (G1 * G1))) :
  Forall (fun q => h d (fst (snd (fst q))) (snd (snd (fst q))) = Ok (fst (snd q)) /\
                     signature_on (fst (snd q)) (fst (fst q)) (snd (snd q))) t ->
  Forall2 (fun mx H => h d (fst mx) (snd mx) = Ok H) (map snd (map fst t)) (map (fun q => fst (snd q)) t) /\
  signatures_on (map (fun q => fst (snd q)) t) (map fst (map fst t)) (map (fun q => snd (snd q)) t).
Proof.
  induction 1 as [|q t [E S] F [IH1 IH2]]; cbn [map]; split; constructor; assumption.
Qed.

Lemma batch_verify_perm h sig d (l l' : list (G2 * (bytes * bytes))) : Permutation l l' ->
  outcome (batch_verify h sig (map fst l) d (map snd l)) = Ok tt ->
  outcome (batch_verify h sig (map fst l') d (map snd l')) = Ok tt.
Proof.
  intros HP H. apply batch_verify_iff in H. destruct H as [Hs [ss [F [S ->]]]].
  destruct (split_triples h d l Hs ss F S) as [t [E1 [E2 [E3 Ft]]]].
  subst l. symmetry in HP; apply Permutation_map_inv in HP. destruct HP as [t' [-> HP]].
  apply batch_verify_iff.
  assert (Ft' : Forall (fun q => h d (fst (snd (fst q))) (snd (snd (fst q))) = Ok (fst (snd q)) /\
                     signature_on (fst (snd q)) (fst (fst q)) (snd (snd q))) t').
  { rewrite Forall_forall in *. intros q Hq. apply Ft. eapply Permutation_in; [|eassumption]. symmetry; assumption. }
  destruct (join_triples h d t' Ft') as [J1 J2].
  eexists _, _. split; [exact J1|]. split; [exact J2|].
  subst ss. rewrite !total_gsum. apply gsum_perm, Permutation_map. assumption.
Qed.

(** ** C06 *)
Lemma signatures_on_app_inv Hs1 Hs2 pks ss : signatures_on (Hs1 ++ Hs2) pks ss ->
  exists pks1 pks2 ss1 ss2, pks = pks1 ++ pks2 /\ ss = ss1 ++ ss2 /\
    signatures_on Hs1 pks1 ss1 /\ signatures_on Hs2 pks2 ss2.
Proof.
  revert pks ss. induction Hs1 as [|H Hs1 IH]; cbn [app]; intros pks ss S.
  - exists [], pks, [], ss. repeat split; [constructor|assumption].
  - inversion S; subst. destruct (IH _ _ ltac:(eassumption)) as [p1 [p2 [s1 [s2 [-> [-> [A B]]]]]]].
    exists (pk :: p1), p2, (s :: s1), s2. repeat split; [constructor; assumption|assumption].
Qed.

Lemma signatures_on_app Hs1 Hs2 pks1 pks2 ss1 ss2 :
  signatures_on Hs1 pks1 ss1 -> signatures_on Hs2 pks2 ss2 ->
  signatures_on (Hs1 ++ Hs2) (pks1 ++ pks2) (ss1 ++ ss2).
Proof. induction 1; cbn [app]; [trivial|]. intros. constructor; auto. Qed.

Lemma signatures_on_unique Hs pks ss ss' : signatures_on Hs pks ss -> signatures_on Hs pks ss' -> ss = ss'.
Proof.
  intros S. revert ss'. induction S as [|H pk s Hs pks ss S1 S IH]; intros ss' S'; inversion S'; subst; [reflexivity|].
  f_equal; [eapply signature_on_unique; eassumption|auto].
Qed.

Lemma total_app {G : grp} (l l' : list G) : total (l ++ l') = (total l + total l')%G.
Proof. rewrite !total_gsum. apply gsum_app. Qed.

Lemma last_component_valid Hs1 H Hs2 pks1 pk pks2 ss1 s ss2 :
  signatures_on Hs1 pks1 ss1 -> signatures_on Hs2 pks2 ss2 ->
  outcome (batch_verify_hashes (aggregate_sig (ss1 ++ s :: ss2)) (pks1 ++ pk :: pks2) (Hs1 ++ H :: Hs2)) = Ok tt ->
  signature_on H pk s.
Proof.
  intros S1 S2 E. destruct (signature_on_exists H pk) as [s' Hs'].
  assert (S : signatures_on (Hs1 ++ H :: Hs2) (pks1 ++ pk :: pks2) (ss1 ++ s' :: ss2))
    by (apply signatures_on_app; [assumption|constructor; assumption]).
  rewrite (bvh_outcome _ _ _ _ S) in E. cbn in E.
  destruct (geqb _ _) eqn:Eg; [|discriminate]. apply geqb_spec in Eg.
  unfold aggregate_sig in Eg. rewrite <- total_gsum, !total_app in Eg. cbn [total fold_right] in Eg.
  apply ga_cancel_l, ga_cancel_r in Eg. subst; assumption.
Qed.

(** ** C07 *)
Lemma msm_lincomb {G : grp} (ps : list G) ks : length ps = length ks -> msm ps ks = lincomb ks ps.
Proof.
  revert ks. induction ps as [|P ps IH]; intros [|k ks] E; try discriminate; [reflexivity|].
  injection E as E. unfold msm in *. cbn [combine map lincomb]. rewrite gsum_cons, IH by assumption. reflexivity.
Qed.
Lemma batch_points_spec {G : grp} ks (ps : list G) :
  (length ks <> length ps -> batch_points ks ps = None) /\
  (length ks = length ps -> batch_points ks ps = Some (lincomb ks ps)).
Proof.
  unfold batch_points. destruct (Nat.eqb_spec (length ps) (length ks)) as [E|E]; split; intros H; cbn [negb];
    first [congruence | rewrite msm_lincomb by assumption; reflexivity | reflexivity].
Qed.
Lemma lincomb_ones {G : grp} (ps : list G) : lincomb (repeat 1 (length ps)) ps = total ps.
Proof. induction ps as [|P ps IH]; [reflexivity|]. cbn [length repeat lincomb total fold_right]. rewrite IH. reflexivity. Qed.

Lemma lincomb_add_scalars {G : grp} ks ks' (ps : list G) : length ks = length ps -> length ks' = length ps ->
  lincomb (map (fun '(a, b) => a + b) (combine ks ks')) ps = (lincomb ks ps + lincomb ks' ps)%G.
Proof.
  revert ks ks'. induction ps as [|P ps IH]; intros [|k ks] [|k' ks'] E E'; try discriminate.
  - cbn. symmetry. apply ga_0_l.
  - cbn [combine map lincomb]. rewrite IH by (cbn in *; lia). rewrite smul_add. apply ga_4.
Qed.
Lemma lincomb_scale {G : grp} c ks (ps : list G) : length ks = length ps ->
  lincomb (map (Z.mul c) ks) ps = smul c (lincomb ks ps).
Proof.
  revert ks. induction ps as [|P ps IH]; intros [|k ks] E; try discriminate.
  - cbn. symmetry. apply smul_gz.
  - cbn [map lincomb]. rewrite IH by (cbn in *; lia). rewrite smul_mul, smul_ga. reflexivity.
Qed.

Lemma lincomb_valid H ks pks ss : length ks = length pks ->
  signatures_on (repeat H (length pks)) pks ss ->
  signature_on H (lincomb ks pks) (lincomb ks ss).
Proof.
  revert ks ss. induction pks as [|pk pks IH]; intros [|k ks] ss E S; try discriminate; cbn [length repeat] in S;
    inversion S; subst.
  - exists 0. split; reflexivity.
  - cbn [lincomb]. destruct (IH ks _ ltac:(cbn in E; lia) ltac:(eassumption)) as [a [D1 E1]].
    match goal with X : signature_on _ _ _ |- _ => destruct X as [b [D2 E2]] end.
    exists (k * b + a)%Z. unfold is_dlog in *. rewrite !smul_add, !smul_mul, <- D1, <- D2, <- E1, <- E2.
    split; reflexivity.
Qed.
End Proofs.
