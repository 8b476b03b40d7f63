(** Proofs for C72. *)
From Coq Require Import Znumtheory Permutation.
From Verif Require Import Base Constants Group Field Curve BlsModel BlsSpec BlsProofs PropBls PointModel EncodingModel HasherModel HashCurveModel HashCurveSpec HashCurveProofs CodecModel CodecSpec CodecProofs PropCodec
  FfiModel FfiSpec FfiProofs PropFfi FfiRestProofs CurveGroups OrderSpec OrderProofs TwistSpec TwistProofs RealSpec RealModel RealProofs RealBatchModel RealBatchSpec.

Lemma some_same {A} (x y : A) : Some x = Some y -> x = y.
Proof. intros H. injection H. intros E. exact E. Qed.
Lemma val_total {G : grp} (l : list (sub G)) : sub_val (total l) = total (map sub_val l).
Proof. induction l as [|P l IH]; [reflexivity|]. cbn [map total fold_right]. fold (total l). fold (total (map sub_val l)). rewrite <- IH. reflexivity. Qed.
Lemma to1_total (l : list (sub g1_curve)) : to1 (total l) = g1_sum (map to1 l).
Proof. unfold to1. rewrite val_total, total_gsum, g1_to_sum, map_map. reflexivity. Qed.
Lemma map_to1_of1 Ss : Forall in_g1 Ss -> map to1 (map of1 Ss) = Ss.
Proof. induction 1 as [|S Ss I F IH]; [reflexivity|]. cbn [map]. rewrite (to1_of1 S I), IH. reflexivity. Qed.
Lemma forall2_app_map {A B C} (Q : B -> C -> Prop) (f : A -> B) l l' : Forall2 Q (map f l) l' <-> Forall2 (fun a c => Q (f a) c) l l'.
Proof.
  revert l'. induction l as [|a l IH]; intros l'; cbn [map].
  - split; intros H; inversion H; constructor.
  - split; intros H; inversion H; subst; constructor; try assumption; apply IH; assumption.
Qed.

Lemma sum_perm1 Ss Ss' : Forall in_g1 Ss -> Permutation Ss Ss' -> g1_sum Ss = g1_sum Ss'.
Proof.
  intros F P. rewrite <- (map_to1_of1 Ss F), <- (map_to1_of1 Ss' (Permutation_Forall P F)), <- !to1_total. f_equal. rewrite !total_gsum. apply aggregate_perm, Permutation_map, P.
Qed.

Section Real.
  Context (GT : grp) (e : g1_point -> g2_point -> GT) (L : bilinear e).
  Context (compat : bool) (ped : bytes -> result bytes) (sqrt : fq -> option fq) (sqrt2 : fq2 -> option fq2).
  Hypothesis ped_bytes : forall m out, ped m = Ok out -> is_bytes out = true.
  Hypothesis sqrt_ok : sqrt_spec qmul sqrt.
  Hypothesis sqrt2_ok : sqrt_spec q2mul sqrt2.
  Notation pr := (real_pairing GT e L).
  Notation direct := (direct_g1 GT e L compat sqrt).
  Notation composite := (composite_g1 GT e L compat ped sqrt).
  Notation cip22 := (cip22_g1 GT e L compat ped sqrt).
  Notation hashed := (hashed compat ped sqrt).
  Notation c_verify := (c_verify GT e L compat ped sqrt sqrt2).
  Notation c_batch := (c_batch_verify GT e L compat ped sqrt sqrt2).
  Notation c_strict := (c_batch_strict GT e L compat ped sqrt sqrt2).
  Notation rk := (fun l P => read_key sqrt2 l = Returns true (Some P)).
  Notation rs := (fun l S => read_signature sqrt l = Returns true (Some S)).

  Lemma flags_sel c f : (f = true -> c = true) <-> exists h, selected direct composite cip22 c f h.
  Proof.
    split.
    - intros H. destruct c, f; [exists cip22; constructor|exists composite; constructor|discriminate (H eq_refl)|exists direct; constructor].
    - intros (h & S). destruct S; [intros H; discriminate H|reflexivity|reflexivity].
  Qed.
  (** ** batch_verify_signature *)
  Definition msg_of (i : item) (P : g2_point) (S : g1_point) : message pr := Msg (pr := pr) (i_msg i) (i_extra i) (of2 P) (of1 S).
  Lemma batch_sel c f h (ms : list (message pr)) : selected direct composite cip22 c f h ->
    (ffi_batch_verify_signature direct composite cip22 ms c f = Returns true (Some true) <->
     outcome (batch_verify h (total (map m_sig ms)) (map m_key ms) SIG_DOMAIN (map (fun m => (m_data m, m_extra m)) ms)) = Ok tt).
  Proof.
    intros S. unfold ffi_batch_verify_signature, aggregate_sig. rewrite <- total_gsum. destruct S.
    - destruct (outcome _) as [[]|er|]; cbn [to_is_ok store convert_result_to_bool]; (split; intros H; [first [reflexivity|discriminate H]|first [reflexivity|discriminate H]]).
    - destruct (outcome _) as [[]|er|]; cbn [to_is_ok store convert_result_to_bool]; (split; intros H; [first [reflexivity|discriminate H]|first [reflexivity|discriminate H]]).
    - destruct (outcome _) as [[]|er|]; cbn [to_is_ok store convert_result_to_bool]; (split; intros H; [first [reflexivity|discriminate H]|first [reflexivity|discriminate H]]).
  Qed.
  Notation due := (fun '(sk, H) => g1_times sk H).
  Definition owner (c f : bool) (q : item * g2_point) (k : Z * g1_point) : Prop :=
    0 <= fst k < r /\ hashed c f SIG_DOMAIN (i_msg (fst q)) (i_extra (fst q)) (snd k) /\ snd q = g2_times (fst k) g2_generator.
  Lemma owners_to c f h (l : list item) : selected direct composite cip22 c f h -> forall Ps Hs ss, Forall in_g2 Ps ->
    Forall2 (fun mx H => h SIG_DOMAIN (fst mx) (snd mx) = Ok H) (map (fun i => (i_msg i, i_extra i)) l) Hs -> signatures_on (pr := pr) Hs (map of2 Ps) ss ->
    exists ks, Forall2 (owner c f) (combine l Ps) ks /\ map to1 ss = map due ks /\ length l = length Ps.
  Proof.
    intros S. induction l as [|i l IH]; intros Ps Hs ss I F V; cbn [map] in F.
    - inversion F; subst. destruct Ps as [|P Ps]; [|inversion V]. inversion V; subst. exists []. repeat split; constructor.
    - inversion F as [|? H ? Hs' E F']; subst. destruct Ps as [|P Ps]; [inversion V|]. cbn [map] in V. inversion V as [|? ? s ? ? ss' V1 V2]; subst. cbn [fst snd] in E.
      destruct (IH Ps Hs' ss' (Forall_inv_tail I) F' V2) as (ks & O & M & LL).
      assert (VI : valid_in (pr := pr) h SIG_DOMAIN (i_msg i) (i_extra i) (of2 P) s) by (exists H; split; assumption).
      apply (valid_points GT e L compat ped sqrt ped_bytes sqrt_ok _ _ _ _ _ _ _ _ S) in VI as (sk & Q & B & HH & D & T). rewrite (to2_of2 P (Forall_inv I)) in D.
      exists ((sk, Q) :: ks). cbn [combine map length]. split; [|split; [rewrite T, M; reflexivity|rewrite LL; reflexivity]].
      constructor; [|exact O]. split; [exact B|]. split; [exact HH|exact D].
  Qed.
  Lemma owners_from c f h (l : list item) : selected direct composite cip22 c f h -> forall Ps ks, length l = length Ps -> Forall2 (owner c f) (combine l Ps) ks ->
    exists Hs ss, Forall2 (fun mx H => h SIG_DOMAIN (fst mx) (snd mx) = Ok H) (map (fun i => (i_msg i, i_extra i)) l) Hs /\ signatures_on (pr := pr) Hs (map of2 Ps) ss /\ map to1 ss = map due ks.
  Proof.
    intros S. induction l as [|i l IH]; intros [|P Ps] ks LL O; try discriminate LL; cbn [combine] in O.
    - inversion O; subst. exists [], []. repeat split; constructor.
    - inversion O as [|? [sk Q] ? ks' (B & HH & D) O']; subst. cbn [fst snd] in *. apply Nat.succ_inj in LL. destruct (IH Ps ks' LL O') as (Hs & ss & F & V & M).
      destruct (hashed_in compat ped sqrt ped_bytes sqrt_ok _ _ _ _ _ _ HH) as (IQ & _). destruct (in_g1_times sk Q (proj1 B) IQ) as (s & T).
      exists (of1 Q :: Hs), (s :: ss). cbn [map]. split; [|split].
      + constructor; [|exact F]. cbn [fst snd]. apply (hash_value GT e L compat ped sqrt ped_bytes sqrt_ok _ _ _ _ _ _ _ S). rewrite (to1_of1 Q IQ). exact HH.
      + constructor; [|exact V]. pose proof (sound_pair GT e L P (to1 s) sk Q direct B IQ D T) as X. rewrite of1_to1 in X. exact X.
      + rewrite T, M. reflexivity.
  Qed.
  Lemma read_items_ok l ms : read_items GT e L sqrt sqrt2 l = Some ms <->
    exists Ps Ss, Forall2 rk (map i_key l) Ps /\ Forall2 rs (map i_sig l) Ss /\ ms = map (fun '(i, (P, T)) => msg_of i P T) (combine l (combine Ps Ss)).
  Proof.
    unfold read_items. split.
    - destruct (read_all (read_key sqrt2) (map i_key l)) as [Ps|] eqn:E1; [|intros H; discriminate H]. destruct (read_all (read_signature sqrt) (map i_sig l)) as [Ss|] eqn:E2; [|intros H; discriminate H].
      intros H. apply some_same in H. exists Ps, Ss. split; [apply read_all_ok, E1|]. split; [apply read_all_ok, E2|symmetry; exact H].
    - intros (Ps & Ss & H1 & H2 & ->). apply read_all_ok in H1, H2. rewrite H1, H2. reflexivity.
  Qed.
  Lemma msgs_parts l : forall Ps Ss, length l = length Ps -> length l = length Ss ->
    map m_sig (map (fun '(i, (P, T)) => msg_of i P T) (combine l (combine Ps Ss))) = map of1 Ss /\
    map m_key (map (fun '(i, (P, T)) => msg_of i P T) (combine l (combine Ps Ss))) = map of2 Ps /\
    map (fun m => (m_data m, m_extra m)) (map (fun '(i, (P, T)) => msg_of i P T) (combine l (combine Ps Ss))) = map (fun i => (i_msg i, i_extra i)) l.
  Proof.
    induction l as [|i l IH]; intros [|P Ps] [|S Ss] L1 L2; try discriminate L1; try discriminate L2; [repeat split; reflexivity|].
    apply Nat.succ_inj in L1, L2. destruct (IH Ps Ss L1 L2) as (A & B & C). cbn [combine map]. rewrite A, B, C. repeat split; reflexivity.
  Qed.
  Lemma reads_length {A B} (Q : A -> B -> Prop) l l' : Forall2 Q l l' -> length l = length l'.
  Proof. induction 1 as [|a b l l' _ _ IH]; [reflexivity|exact (f_equal S IH)]. Qed.
  Lemma keys_read ls Ps : forallb is_bytes ls = true -> (Forall2 rk ls Ps <-> Forall2 key_bytes ls Ps).
  Proof.
    revert Ps. induction ls as [|l ls IH]; intros Ps B; cbn [forallb] in B; [split; intros H; inversion H; constructor|]. apply andb_true_iff in B as [B B'].
    split; intros H; inversion H; subst; (constructor; [apply (read_key_iff sqrt2 sqrt2_ok l _ B); assumption|apply (IH _ B'); assumption]).
  Qed.
  Lemma sigs_read ls Ss : forallb is_bytes ls = true -> (Forall2 rs ls Ss <-> Forall2 sig_bytes ls Ss).
  Proof.
    revert Ss. induction ls as [|l ls IH]; intros Ss B; cbn [forallb] in B; [split; intros H; inversion H; constructor|]. apply andb_true_iff in B as [B B'].
    split; intros H; inversion H; subst; (constructor; [apply (read_signature_iff sqrt sqrt_ok l _ B); assumption|apply (IH _ B'); assumption]).
  Qed.
  Lemma keys_in ls Ps : Forall2 key_bytes ls Ps -> Forall in_g2 Ps.
  Proof. induction 1 as [|l P ls Ps (_ & _ & I) _ IH]; constructor; assumption. Qed.
  Lemma sigs_in ls Ss : Forall2 sig_bytes ls Ss -> Forall in_g1 Ss.
  Proof. induction 1 as [|l P ls Ps (_ & _ & I) _ IH]; constructor; assumption. Qed.
  Lemma keyed_owners c f l Ps ks : Forall2 key_bytes (map i_key l) Ps -> (Forall2 (owner c f) (combine l Ps) ks <-> Forall2 (keyed (hashed c f SIG_DOMAIN)) l ks /\ Ps = map (fun k => g2_times (fst k) g2_generator) ks).
  Proof.
    revert Ps ks. induction l as [|i l IH]; intros Ps ks R; cbn [map] in R; inversion R as [|? P ? Ps' R1 R2]; subst; cbn [combine].
    - split; [intros H; inversion H; split; [constructor|reflexivity]|]. intros [H _]. inversion H; constructor.
    - split.
      + intros H. inversion H as [|? [sk Q] ? ks' (B & HH & D) O]; subst. apply (IH _ _ R2) in O as [O1 O2]. cbn [fst snd] in *. split; [|cbn [map fst]; rewrite <- D, <- O2; reflexivity].
        constructor; [|exact O1]. split; [exact B|]. split; [exact HH|]. rewrite D in R1. exact (conj (proj1 R1) (proj1 (proj2 R1))).
      + intros [H E]. inversion H as [|? [sk Q] ? ks' (B & HH & _) O]; subst. cbn [map fst snd] in *. pose proof (f_equal (@hd g2_point None) E) as E1. pose proof (f_equal (@tl g2_point) E) as E2. cbn [hd tl] in E1, E2.
        constructor; [split; [exact B|]; split; [exact HH|exact E1]|]. apply (IH _ _ R2). split; [exact O|exact E2].
  Qed.
  Lemma keyed_key h i k : keyed h i k -> key_bytes (i_key i) (g2_times (fst k) g2_generator).
  Proof. intros (B & _ & L1 & W). split; [exact L1|]. split; [exact W|]. exists (fst k). split; [exact B|reflexivity]. Qed.
  Lemma keyed_keys h l ks : Forall2 (keyed h) l ks -> Forall2 key_bytes (map i_key l) (map (fun k => g2_times (fst k) g2_generator) ks).
  Proof. induction 1 as [|i k l ks K F IH]; cbn [map]; constructor; [exact (keyed_key h i k K)|exact IH]. Qed.
  Lemma batch_verify_iff_c l c f : forallb is_bytes (map i_key l) = true -> forallb is_bytes (map i_sig l) = true ->
    (c_batch l c f = Some true <-> (f = true -> c = true) /\ exists ks Ss, Forall2 (keyed (hashed c f SIG_DOMAIN)) l ks /\ Forall2 (fun i S => sig_bytes (i_sig i) S) l Ss /\ g1_sum Ss = g1_sum (map due ks)).
  Proof.
    intros B1 B2. unfold c_batch_verify. split.
    - destruct (read_items GT e L sqrt sqrt2 l) as [ms|] eqn:E; [|intros H; discriminate H]. intros H. apply then_some in H as (v & H & V). apply some_same in V. subst v.
      assert (FL : exists h, selected direct composite cip22 c f h) by (destruct c, f; [exists cip22; constructor|exists composite; constructor|discriminate H|exists direct; constructor]).
      split; [apply flags_sel, FL|]. destruct FL as (h & Sl). apply (batch_sel _ _ _ _ Sl) in H. apply read_items_ok in E as (Ps & Ss & R1 & R2 & ->).
      assert (N1 : length l = length Ps) by (rewrite <- (reads_length _ _ _ R1); symmetry; apply map_length). assert (N2 : length l = length Ss) by (rewrite <- (reads_length _ _ _ R2); symmetry; apply map_length).
      destruct (msgs_parts l Ps Ss N1 N2) as (E1 & E2 & E3). rewrite E1, E2, E3 in H. apply (keys_read _ _ B1) in R1. apply (sigs_read _ _ B2) in R2.
      apply batch_verify_iff in H as (Hs & ss & HF & V & T). destruct (owners_to c f h l Sl Ps Hs ss (keys_in _ _ R1) HF V) as (ks & O & M & _).
      apply (keyed_owners _ _ _ _ _ R1) in O as [O _]. exists ks, Ss. split; [exact O|]. split; [apply forall2_app_map, R2|].
      apply (f_equal to1) in T. rewrite !to1_total, (map_to1_of1 _ (sigs_in _ _ R2)), M in T. exact T.
    - intros (FL & ks & Ss & O & R2 & T). apply flags_sel in FL as (h & Sl). apply forall2_app_map in R2. pose proof (keyed_keys _ _ _ O) as R1.
      set (Ps := map (fun k => g2_times (fst k) g2_generator) ks) in *.
      assert (N1 : length l = length Ps) by (rewrite <- (reads_length _ _ _ R1); symmetry; apply map_length). assert (N2 : length l = length Ss) by (rewrite <- (reads_length _ _ _ R2); symmetry; apply map_length).
      rewrite (proj2 (read_items_ok l (map (fun '(i, (P, T)) => msg_of i P T) (combine l (combine Ps Ss))))).
      2:{ exists Ps, Ss. split; [apply (keys_read _ _ B1), R1|]. split; [apply (sigs_read _ _ B2), R2|reflexivity]. }
      apply then_some. exists true. split; [|reflexivity]. apply (batch_sel _ _ _ _ Sl). destruct (msgs_parts l Ps Ss N1 N2) as (E1 & E2 & E3). rewrite E1, E2, E3.
      assert (O' : Forall2 (owner c f) (combine l Ps) ks) by (apply (keyed_owners _ _ _ _ _ R1); split; [exact O|reflexivity]).
      destruct (owners_from c f h l Sl Ps ks N1 O') as (Hs & ss & HF & V & M). apply batch_verify_iff. exists Hs, ss. split; [exact HF|]. split; [exact V|].
      apply to1_inj. rewrite !to1_total, (map_to1_of1 _ (sigs_in _ _ R2)), M. exact T.
  Qed.
  Lemma reassign_parts l : forall sigs, length l = length sigs -> map i_sig (reassign l sigs) = sigs /\ map i_key (reassign l sigs) = map i_key l.
  Proof. induction l as [|i l IH]; intros [|s sigs] N; try discriminate N; [split; reflexivity|]. apply Nat.succ_inj in N. destruct (IH sigs N) as [E1 E2]. unfold reassign in *. cbn [combine map i_sig i_key]. rewrite E1, E2. split; reflexivity. Qed.
  Lemma reassign_keyed h l : forall sigs ks, length l = length sigs -> Forall2 (keyed h) l ks -> Forall2 (keyed h) (reassign l sigs) ks.
  Proof.
    induction l as [|i l IH]; intros [|s sigs] ks N F; try discriminate N; [exact F|]. inversion F as [|? k ? ks' K F']; subst. unfold reassign. cbn [combine map]. constructor; [exact K|].
    apply IH; [apply Nat.succ_inj, N|exact F'].
  Qed.
  Lemma bytes_all l : forallb is_bytes l = true <-> Forall (fun x => is_bytes x = true) l.
  Proof. rewrite forallb_forall, Forall_forall. reflexivity. Qed.
  Lemma unordered_c l sigs c f : forallb is_bytes (map i_key l) = true -> forallb is_bytes (map i_sig l) = true -> Permutation (map i_sig l) sigs ->
    c_batch l c f = Some true -> c_batch (reassign l sigs) c f = Some true.
  Proof.
    intros B1 B2 P H. assert (N : length l = length sigs) by (rewrite <- (Permutation_length P); symmetry; apply map_length). destruct (reassign_parts l sigs N) as [E1 E2].
    apply (batch_verify_iff_c l c f B1 B2) in H as (FL & ks & Ss & K & S & T). apply batch_verify_iff_c; [rewrite E2; exact B1|rewrite E1; apply bytes_all, (Permutation_Forall P), bytes_all, B2|].
    split; [exact FL|]. apply forall2_app_map in S. destruct (Permutation_Forall2 P S) as (Ss' & P' & S'). exists ks, Ss'. split; [apply reassign_keyed; [exact N|exact K]|].
    split; [apply (forall2_app_map sig_bytes i_sig); rewrite E1; exact S'|]. rewrite <- T. symmetry. apply sum_perm1; [exact (sigs_in _ _ S)|exact P'].
  Qed.
  Lemma batch_complete_c l c f : (f = true -> c = true) -> Forall (fun i => is_bytes (i_key i) = true /\ is_bytes (i_sig i) = true /\ c_verify (i_key i) (i_sig i) (i_msg i) (i_extra i) c f = Some true) l ->
    c_batch l c f = Some true.
  Proof.
    intros FL A. assert (B : forallb is_bytes (map i_key l) = true /\ forallb is_bytes (map i_sig l) = true).
    { split; apply bytes_all, Forall_map; revert A; apply Forall_impl; intros i (B1 & B2 & _); assumption. }
    apply batch_verify_iff_c; [apply B|apply B|]. split; [exact FL|].
    assert (exists ks, Forall2 (keyed (hashed c f SIG_DOMAIN)) l ks /\ Forall2 (fun i S => sig_bytes (i_sig i) S) l (map due ks)) as (ks & K & S); [|exists ks, (map due ks); split; [exact K|split; [exact S|reflexivity]]].
    clear B. induction A as [|i l (B1 & B2 & V) A (ks & K & S)]; [exists []; split; constructor|].
    apply (verify_iff_c GT e L compat ped sqrt sqrt2 ped_bytes sqrt_ok sqrt2_ok _ _ _ _ _ _ B1 B2) in V as (sk & H & B & HH & L1 & W1 & L2 & W2).
    exists ((sk, H) :: ks). cbn [map]. split; constructor; try assumption.
    - split; [exact B|]. split; [exact HH|]. split; [exact L1|exact W1].
    - split; [exact L2|]. split; [exact W2|]. destruct (hashed_in compat ped sqrt ped_bytes sqrt_ok _ _ _ _ _ _ HH) as (IH & _). destruct (in_g1_times sk H (proj1 B) IH) as (s & <-). apply to1_in.
  Qed.
  Lemma screening_c pk1 sig1 pk2 sig2 m x c f : is_bytes pk1 = true -> is_bytes sig1 = true -> is_bytes pk2 = true -> is_bytes sig2 = true ->
    ~ wire_g2 (number (firstn 96 pk1)) None -> firstn 48 sig1 <> firstn 48 sig2 -> c_verify pk1 sig1 m x c f = Some true -> c_verify pk2 sig2 m x c f = Some true ->
    c_batch [Item pk1 sig2 m x; Item pk2 sig1 m x] c f = Some true /\ c_verify pk1 sig2 m x c f <> Some true.
  Proof.
    intros B1 B2 B3 B4 NI D V1 V2. split.
    - change [Item pk1 sig2 m x; Item pk2 sig1 m x] with (reassign [Item pk1 sig1 m x; Item pk2 sig2 m x] [sig2; sig1]).
      apply unordered_c; [cbn [map forallb i_key]; rewrite B1, B3; reflexivity|cbn [map forallb i_sig]; rewrite B2, B4; reflexivity|apply perm_swap|].
      apply batch_complete_c; [|constructor; [exact (conj B1 (conj B2 V1))|constructor; [exact (conj B3 (conj B4 V2))|constructor]]].
      apply (verify_iff_c GT e L compat ped sqrt sqrt2 ped_bytes sqrt_ok sqrt2_ok _ _ _ _ _ _ B1 B2) in V1 as (sk & H & _ & HH & _). intros ->. destruct c; [reflexivity|]. destruct (hashed_sel GT e L compat ped sqrt _ _ _ _ _ _ HH) as (h & Sl). inversion Sl.
    - intros V. apply D. exact (unique_c GT e L compat ped sqrt sqrt2 ped_bytes sqrt_ok sqrt2_ok _ _ _ _ _ _ _ B1 B2 B4 NI V1 V).
  Qed.
  (** ** batch_verify_strict *)
  Notation slot := (strict_slot direct composite cip22).
  Lemma loop_slots c f bs : forall acc v res b, strict_loop direct composite cip22 c f bs acc v = Ok (res, b) ->
    exists slots, Forall2 (fun q s => slot c f (fst q) (snd q) = Ok s) bs slots.
  Proof.
    induction bs as [|[q rnd] bs IH]; intros acc v res b H; cbn [strict_loop] in H; [exists []; constructor|].
    destruct (slot c f q rnd) as [s|er|] eqn:E; cbn [rbind] in H; try discriminate H. destruct (IH _ _ _ _ H) as (slots & F). exists (s :: slots). constructor; [exact E|exact F].
  Qed.
  Lemma strict_slots_iff c f bs b slots : ffi_batch_verify_strict direct composite cip22 bs c f = Returns b (Some slots) <->
    Forall2 (fun q s => slot c f (fst q) (snd q) = Ok s) bs slots /\ b = forallb id slots.
  Proof.
    split.
    - intros H. assert (exists sl, Forall2 (fun q s => slot c f (fst q) (snd q) = Ok s) bs sl) as (sl & F).
      { unfold ffi_batch_verify_strict in H. destruct (strict_loop direct composite cip22 c f bs [] true) as [[res v]|er|] eqn:E; [exact (loop_slots _ _ _ _ _ _ _ E)|discriminate H|discriminate H]. }
      rewrite (strict_of_slots direct composite cip22 c f bs sl F) in H. injection H as H1 H2. subst sl. split; [exact F|symmetry; exact H1].
    - intros [F ->]. apply strict_of_slots, F.
  Qed.
  Notation rl := (read_lot GT e L sqrt sqrt2).
  Lemma read_lots_ok l bs : read_lots GT e L sqrt sqrt2 l = Some bs <-> Forall2 (fun q b => rl (fst q) = Some (fst b) /\ snd q = snd b) l bs.
  Proof.
    revert bs. induction l as [|[q rnd] l IH]; intros bs; cbn [read_lots].
    - split; [intros H; apply some_same in H; subst bs; constructor|intros H; inversion H; reflexivity].
    - split.
      + destruct (rl q) as [b|] eqn:E; [|intros H; discriminate H]. destruct (read_lots GT e L sqrt sqrt2 l) as [bs'|]; [|intros H; discriminate H]. intros H. apply some_same in H. subst bs.
        constructor; [split; [exact E|reflexivity]|]. apply IH. reflexivity.
      + intros H. inversion H as [|? [b rnd'] ? bs' [E1 E2] F]; subst. cbn [fst snd] in *. subst rnd'. apply IH in F. rewrite E1, F. reflexivity.
  Qed.
  Lemma c_strict_iff l c f b slots : c_strict l c f = Some (b, slots) <->
    exists bs, read_lots GT e L sqrt sqrt2 l = Some bs /\ ffi_batch_verify_strict direct composite cip22 bs c f = Returns b (Some slots).
  Proof.
    unfold c_batch_strict. split.
    - destruct (read_lots GT e L sqrt sqrt2 l) as [bs|]; [|intros H; discriminate H]. intros H. exists bs. split; [reflexivity|].
      destruct (ffi_batch_verify_strict direct composite cip22 bs c f) as [b' [sl|]|]; try discriminate H. apply some_same in H. injection H as -> ->. reflexivity.
    - intros (bs & -> & ->). reflexivity.
  Qed.
  Lemma one_strict q c f s : c_strict [q] c f = Some (s, [s]) <-> exists b, rl (fst q) = Some b /\ slot c f b (snd q) = Ok s.
  Proof.
    rewrite c_strict_iff. split.
    - intros (bs & R & H). apply strict_slots_iff in H as [F _]. inversion F as [|[b rnd] ? bs' ? E F']; subst. inversion F'; subst. apply read_lots_ok in R. inversion R as [|? ? ? ? [E1 E2] _]; subst. cbn [fst snd] in *.
      exists b. rewrite E2. split; assumption.
    - intros (b & R & E). exists [(b, snd q)]. split; [apply read_lots_ok; constructor; [split; [exact R|reflexivity]|constructor]|].
      apply strict_slots_iff. split; [constructor; [exact E|constructor]|]. cbn [forallb]. rewrite andb_true_r. reflexivity.
  Qed.
  Lemma strict_split_c l c f b slots : c_strict l c f = Some (b, slots) <-> b = forallb (fun s => s) slots /\ Forall2 (fun q s => c_strict [q] c f = Some (s, [s])) l slots.
  Proof.
    rewrite c_strict_iff. change (fun s : bool => s) with (@id bool). split.
    - intros (bs & R & H). apply strict_slots_iff in H as [F E]. split; [exact E|]. apply read_lots_ok in R. clear E b. revert slots F. induction R as [|q b l bs [R1 R2] _ IH]; intros slots F; inversion F as [|? s ? sl E F']; subst; constructor.
      + apply one_strict. exists (fst b). rewrite R2. split; assumption.
      + apply IH, F'.
    - intros [-> F]. assert (exists bs, read_lots GT e L sqrt sqrt2 l = Some bs /\ Forall2 (fun q s => slot c f (fst q) (snd q) = Ok s) bs slots) as (bs & R & F'); [|exists bs; split; [exact R|apply strict_slots_iff; split; [exact F'|reflexivity]]].
      induction F as [|q s l slots H _ (bs & R & F')]; [exists []; split; [reflexivity|constructor]|]. apply one_strict in H as (b & E1 & E2). exists ((b, snd q) :: bs).
      split; [apply read_lots_ok; constructor; [split; [exact E1|reflexivity]|apply read_lots_ok, R]|constructor; [exact E2|exact F']].
  Qed.
  Lemma read_lot_ok q b : rl q = Some b <-> exists Ps Ss, Forall2 rk (l_keys q) Ps /\ Forall2 rs (l_sigs q) Ss /\ b = BMsg (pr := pr) (l_msg q) (l_extra q) (map of2 Ps) (map of1 Ss).
  Proof.
    unfold read_lot. split.
    - destruct (read_all (read_key sqrt2) (l_keys q)) as [Ps|] eqn:E1; [|intros H; discriminate H]. destruct (read_all (read_signature sqrt) (l_sigs q)) as [Ss|] eqn:E2; [|intros H; discriminate H].
      intros H. apply some_same in H. exists Ps, Ss. split; [apply read_all_ok, E1|]. split; [apply read_all_ok, E2|symmetry; exact H].
    - intros (Ps & Ss & H1 & H2 & ->). apply read_all_ok in H1, H2. rewrite H1, H2. reflexivity.
  Qed.
  Lemma verify_read c f h pk sig P S m x : selected direct composite cip22 c f h -> rk pk P -> rs sig S ->
    (c_verify pk sig m x c f = Some true <-> valid_in (pr := pr) h SIG_DOMAIN m x (of2 P) (of1 S)).
  Proof.
    intros Sl R1 R2. unfold RealModel.c_verify. rewrite <- (C49_verify_selected _ _ _ _ _ _ _ _ _ _ _ Sl), then_some. split.
    - intros (P' & R1' & H). assert (P' = P) as -> by congruence. apply then_some in H as (S' & R2' & H). assert (S' = S) as -> by congruence. apply then_some in H as (v & H & V). apply some_same in V. subst v. exact H.
    - intros H. exists P. split; [exact R1|]. apply then_some. exists S. split; [exact R2|]. apply then_some. exists true. split; [exact H|reflexivity].
  Qed.
  Lemma pairs_read c f h m x keys Ps sigs Ss : selected direct composite cip22 c f h -> Forall2 rk keys Ps -> Forall2 rs sigs Ss ->
    (Forall (fun '(pk, sig) => c_verify pk sig m x c f = Some true) (combine keys sigs) <-> pair_ok h (BMsg (pr := pr) m x (map of2 Ps) (map of1 Ss))) /\
    length (combine keys sigs) = pair_count (BMsg (pr := pr) m x (map of2 Ps) (map of1 Ss)).
  Proof.
    intros Sl R1 R2. split.
    - unfold pair_ok. cbn [bm_data bm_extra bm_keys bm_sigs]. revert sigs Ss R2. induction R1 as [|pk P keys Ps R1 F1 IH]; intros sigs Ss R2; [split; constructor|].
      destruct R2 as [|sig S sigs Ss R2 F2]; [split; constructor|]. cbn [combine map]. rewrite !Forall_cons_iff, (IH _ _ F2), (verify_read c f h pk sig P S m x Sl R1 R2). reflexivity.
    - unfold pair_count. cbn [bm_keys bm_sigs]. rewrite combine_length, !map_length, (reads_length _ _ _ R1), (reads_length _ _ _ R2). reflexivity.
  Qed.
  Lemma strict_sound_c q c f (draws : list (list bytes)) : Z.of_nat (length (pairs q)) <= usize_max ->
    ~ Forall (fun '(pk, sig) => c_verify pk sig (l_msg q) (l_extra q) c f = Some true) (pairs q) -> NoDup draws ->
    (forall rnd, In rnd draws -> strict_draw (length (pairs q)) rnd /\ exists slots, c_strict [(q, rnd)] c f = Some (true, slots)) ->
    Z.of_nat (length draws) * 2 ^ (8 * ((128 + Z.log2_up (Z.of_nat (length (pairs q))) + 7) / 8)) <= 2 ^ (8 * ((128 + Z.log2_up (Z.of_nat (length (pairs q))) + 7) / 8) * Z.of_nat (length (pairs q))).
  Proof.
    intros Hn V ND A. destruct draws as [|d0 draws]; [cbn [length]; rewrite Z.mul_0_l; apply Z.pow_nonneg; lia|].
    assert (X : forall rnd, In rnd (d0 :: draws) -> exists b, rl q = Some b /\ slot c f b rnd = Ok true).
    { intros rnd I. destruct (A rnd I) as [_ (slots & H)]. apply strict_split_c in H as [E F]. inversion F as [|? s ? sl F1 F2]; subst. inversion F2; subst. cbn [forallb] in E. rewrite andb_true_r in E. subst s. apply one_strict in F1 as (b & E1 & E2). exists b. split; assumption. }
    destruct (X d0 (or_introl eq_refl)) as (b & R & E0). assert (FL : exists h, selected direct composite cip22 c f h) by (destruct c, f; [exists cip22; constructor|exists composite; constructor|discriminate E0|exists direct; constructor]).
    destruct FL as (h & Sl). apply read_lot_ok in R as R'. destruct R' as (Ps & Ss & R1 & R2 & EB). destruct (pairs_read c f h (l_msg q) (l_extra q) _ _ _ _ Sl R1 R2) as [PO PC]. rewrite <- EB in PO, PC.
    unfold pairs in *. rewrite PC. apply (strict_sound direct composite cip22 c f h b (d0 :: draws)); [exact Sl|rewrite <- PC; exact Hn|rewrite <- PO; exact V|exact ND|].
    intros rnd I. split; [rewrite <- PC; exact (proj1 (A rnd I))|]. destruct (X rnd I) as (b' & R3 & E). assert (b' = b) as -> by congruence. exists (Some [true]). apply strict_slots_iff. split; [constructor; [exact E|constructor]|reflexivity].
  Qed.
  Lemma pairs_nonempty {A B} (Q : A -> B -> Prop) l l' : Forall2 Q l l' -> Forall (fun '(a, b) => Q a b) (combine l l').
  Proof. induction 1; constructor; assumption. Qed.
  Lemma strict_complete_c l c f : Forall (good_lot c_verify c f) l -> c_strict l c f = Some (true, repeat true (length l)).
  Proof.
    intros F. apply strict_split_c. split; [clear; induction l; [reflexivity|assumption]|]. induction F as [|[q rnd] l (NE & B1 & B2 & Hn & D & V) _ IH]; cbn [length repeat]; constructor; [|exact IH]. cbn [fst snd] in *.
    assert (exists Ps Ss, Forall2 rk (l_keys q) Ps /\ Forall2 rs (l_sigs q) Ss) as (Ps & Ss & R1 & R2).
    { clear - V. induction V as [|pk sig keys sigs V _ (Ps & Ss & R1 & R2)]; [exists [], []; split; constructor|]. unfold RealModel.c_verify in V. apply then_some in V as (P & HP & V). apply then_some in V as (S & HS & _). exists (P :: Ps), (S :: Ss). split; constructor; assumption. }
    assert (FL : exists h, selected direct composite cip22 c f h).
    { destruct V as [|pk sig keys sigs V _]; [contradiction NE; reflexivity|]. cbn [forallb] in B1, B2. apply andb_true_iff in B1 as [B1 _], B2 as [B2 _].
      apply (verify_iff_c GT e L compat ped sqrt sqrt2 ped_bytes sqrt_ok sqrt2_ok _ _ _ _ _ _ B1 B2) in V as (sk & H & _ & HH & _). exact (hashed_sel GT e L compat ped sqrt _ _ _ _ _ _ HH). }
    destruct FL as (h & Sl). destruct (pairs_read c f h (l_msg q) (l_extra q) _ _ _ _ Sl R1 R2) as [PO PC]. apply (pairs_nonempty _ _ _) in V as V'. apply PO in V'.
    set (b := BMsg (pr := pr) (l_msg q) (l_extra q) (map of2 Ps) (map of1 Ss)) in *.
    assert (HO : is_ok (h SIG_DOMAIN (l_msg q) (l_extra q)) = true).
    { destruct R1 as [|pk P keys Ps R1 _]; [contradiction NE; reflexivity|]. destruct R2 as [|sig S sigs Ss R2 _]; [inversion V|]. unfold pair_ok, b in V'. cbn [bm_keys bm_sigs map combine bm_data bm_extra] in V'. apply Forall_inv in V'. destruct V' as (H & E & _). rewrite E. reflexivity. }
    unfold pairs in *. rewrite PC in Hn, D.
    assert (C : ffi_batch_verify_strict direct composite cip22 [(b, rnd)] c f = Returns true (Some [true])).
    { apply (strict_complete direct composite cip22 c f h [(b, rnd)] Sl).
      - constructor; [|constructor]. split; [exact Hn|]. split; [exact D|]. cbn [fst snd bm_data bm_extra b]. intros K. unfold b in K. cbn [bm_data bm_extra] in K. rewrite K in HO. discriminate HO.
      - constructor; [|constructor]. split; [exact V'|exact HO]. }
    apply one_strict. exists b. split; [apply read_lot_ok; exists Ps, Ss; split; [exact R1|split; [exact R2|reflexivity]]|]. apply strict_slots_iff in C as [C _]. inversion C; subst. assumption.
  Qed.
End Real.
