(** Proofs for C84. *)
From Verif Require Import Base Constants Group Field Curve BlsModel BlsSpec PointModel EncodingModel HasherModel HashCurveModel HashCurveSpec CodecModel CodecSpec
  FfiModel CurveGroups CurveCount CurveOrder TwistOrder OrderSpec OrderProofs TwistSpec RealSpec RealModel RealProofs PropReal RealBatchModel RealBatchSpec RealBatchProofs RealSessionProofs RogueProofs ReductionSpec ReductionProofs ScreenSpec.

Lemma pair_cons {A B} (R : A -> B -> Prop) a b l l' : Forall2 R (a :: l) (b :: l') -> R a b /\ Forall2 R l l'. Proof. intros H. inversion H. split; assumption. Qed.
Section Screen.
  Context (GT : grp) (e : g1_point -> g2_point -> GT) (L : bilinear e).
  Context (compat : bool) (ped : bytes -> result bytes) (sqrt : fq -> option fq) (sqrt2 : fq2 -> option fq2).
  Hypothesis ped_bytes : forall m out, ped m = Ok out -> is_bytes out = true.
  Hypothesis sqrt_ok : sqrt_spec qmul sqrt.
  Hypothesis sqrt2_ok : sqrt_spec q2mul sqrt2.
  Notation hash := (hashed compat ped sqrt).
  Notation proved := (proved hash (c_verify_pop GT e L compat sqrt sqrt2)).
  Context (c f : bool) (A : g2_point) (Y B : g1_point) (a : Z) (a_range : 0 <= a < r) (A_is : A = g2_times a g2_generator) (B_is : B = g1_times a g1_generator) (Y_in : in_g1 Y).
  Notation plays := (plays (hash c f SIG_DOMAIN) (proved Y) A Y).
  Lemma same_secret s s' : 0 <= s -> 0 <= s' -> g2_times s g2_generator = g2_times s' g2_generator -> s mod r = s' mod r.
  Proof.
    intros K K' E. apply (f_equal of2) in E. rewrite !of2_times, of2_gen in E by (try assumption; exact gen2_in). exact (smul_inj_scalar _ _ _ (ord_sub g2_curve _) gen2_nz E).
  Qed.
  Lemma smul_same (P : sub g1_curve) s s' : s mod r = s' mod r -> smul s P = smul s' P.
  Proof. intros E. rewrite (sub_mod g1_curve s), E, <- (sub_mod g1_curve). reflexivity. Qed.
  Lemma swap (P : sub g1_curve) s k : smul s (smul k P) = smul k (smul s P).
  Proof. rewrite <- !smul_mul, Z.mul_comm. reflexivity. Qed.
  Lemma times_in s P : 0 <= s -> in_g1 P -> in_g1 (g1_times s P). Proof. exact (in_times s P). Qed.
  Lemma signed_case G s k : in_g1 G -> 0 <= s -> 0 <= k -> s mod r = a mod r -> of1 (g1_times s (g1_times k G)) = of1 (g1_times k (g1_times a G)).
  Proof.
    intros IG S K E. rewrite (of1_times s _ S (times_in k G K IG)), (of1_times k _ K (times_in a G (proj1 a_range) IG)), (of1_times k G K IG), (of1_times a G (proj1 a_range) IG), (swap _ k a). apply smul_same, E.
  Qed.
  Lemma item_share i q k : is_bytes (i_key i) = true -> plays i q -> keyed (hash c f SIG_DOMAIN) i k ->
    in_g1 (share B q) /\ in_g1 (g1_times (fst k) (snd k)) /\ of1 (g1_times (fst k) (snd k)) = ga (smul (a * unsigned q) (of1 Y)) (of1 (share B q)).
  Proof.
    intros BK PL KY. pose proof (keyed_key _ _ _ KY) as KK. destruct KY as (R & HH & _). destruct k as [s H]. cbn [fst snd] in *.
    pose proof (proj1 (hashed_in compat ped sqrt ped_bytes sqrt_ok _ _ _ _ _ _ HH)) as IH.
    assert (I0 : in_g1 (g1_times s H)) by (apply times_in; [apply R|exact IH]).
    assert (U : forall P, key_bytes (i_key i) P -> P = g2_times s g2_generator) by (intros P KP; exact (key_bytes_unique sqrt2 sqrt2_ok _ _ _ BK KP KK)).
    assert (N : of1 None = gz) by (apply to1_inj; rewrite to1_of1; [reflexivity|exact (to1_in gz)]).
    destruct q as [k|k|o k|s' H']; cbn [plays unsigned share] in *.
    - destruct PL as (KA & K & HY). apply U in KA. rewrite (hashed_unique _ _ _ _ _ _ _ _ _ _ HH HY) in *. split; [exact (to1_in gz)|]. split; [exact I0|].
      rewrite N, ga_0_r, (of1_times s _ (proj1 R)), (of1_times k _ K Y_in), smul_mul by (apply times_in; assumption). apply smul_same, same_secret; [apply R|apply a_range|]. congruence.
    - destruct PL as (KA & K & HY). apply U in KA. rewrite (hashed_unique _ _ _ _ _ _ _ _ _ _ HH HY) in *. assert (IB : in_g1 B) by (rewrite B_is; apply times_in; [apply a_range|exact g1_gen_in]).
      split; [apply times_in; assumption|]. split; [exact I0|]. rewrite Z.mul_0_r, smul_0, ga_0_l. rewrite B_is at 1. apply (signed_case g1_generator s k g1_gen_in (proj1 R) K). apply same_secret; [apply R|apply a_range|]. congruence.
    - destruct PL as (KO & (B1 & B2 & KP & KS & Fo & HO & V) & K & HY). apply U in KO. rewrite (hashed_unique _ _ _ _ _ _ _ _ _ _ HH HY) in *.
      destruct (behind_pop GT e L compat ped sqrt sqrt2 ped_bytes sqrt_ok sqrt2_ok _ _ _ _ _ _ B1 B2 KP KS HO V) as (t & T & EP & ES). pose proof (in_divided (o_factor o) _ (proj2 (proj2 KS))) as ID.
      split; [apply times_in; assumption|]. split; [exact I0|]. rewrite Z.mul_0_r, smul_0, ga_0_l, (of1_times s _ (proj1 R)), (of1_times k _ K ID), (of1_times k _ K Y_in) by (apply times_in; assumption).
      rewrite ES, (solved Y _ t Y_in Fo (proj1 T)), (swap _ k t). apply smul_same, same_secret; [apply R|apply T|]. congruence.
    - destruct PL as (KS & K & HY). apply U in KS. rewrite (hashed_unique _ _ _ _ _ _ _ _ _ _ HH HY) in *. split; [apply times_in; assumption|]. split; [exact I0|].
      rewrite Z.mul_0_r, smul_0, ga_0_l, (of1_times s _ (proj1 R) IH), (of1_times s' _ K IH). apply smul_same, same_secret; [apply R|exact K|]. congruence.
  Qed.
  Lemma four {G : grp} (P Q R S : G) : ga (ga P Q) (ga R S) = ga (ga P R) (ga Q S).
  Proof. rewrite <- !ga_assoc. f_equal. rewrite !ga_assoc, (ga_comm _ Q R). reflexivity. Qed.
  Notation due := (fun '(sk, H) => g1_times sk H).
  Lemma sum_cons P l : in_g1 P -> in_g1 (g1_sum l) -> Forall in_g1 l -> in_g1 (g1_sum (P :: l)) /\ of1 (g1_sum (P :: l)) = ga (of1 P) (of1 (g1_sum l)).
  Proof.
    intros I IS F. assert (E : g1_sum (P :: l) = to1 (ga (of1 P) (of1 (g1_sum l)))).
    { rewrite <- (map_to1_of1 (P :: l)), <- to1_total by (constructor; assumption). f_equal. cbn [map]. rewrite <- (map_to1_of1 l F) at 2. rewrite <- to1_total, of1_to1. reflexivity. }
    rewrite E. split; [apply to1_in|apply of1_to1].
  Qed.
  Lemma sum_shares l qs ks : forallb is_bytes (map i_key l) = true -> Forall2 plays l qs -> Forall2 (keyed (hash c f SIG_DOMAIN)) l ks ->
    Forall in_g1 (map (share B) qs) /\ Forall in_g1 (map due ks) /\ in_g1 (g1_sum (map (share B) qs)) /\ in_g1 (g1_sum (map due ks)) /\
    of1 (g1_sum (map due ks)) = ga (smul (a * fold_right Z.add 0 (map unsigned qs)) (of1 Y)) (of1 (g1_sum (map (share B) qs))).
  Proof.
    intros BL PL. revert ks BL. induction PL as [|i q l qs P PL IH]; intros ks BL K; cbn [map fold_right forallb] in *.
    - destruct ks as [|k ks]; [|inversion K]. cbn [map]. split; [constructor|]. split; [constructor|]. assert (I0 : in_g1 (g1_sum [])) by exact (to1_in gz). split; [exact I0|]. split; [exact I0|].
      rewrite Z.mul_0_r, smul_0, ga_0_l. reflexivity.
    - destruct ks as [|[s H] ks']; [inversion K|]. apply pair_cons in K as [K1 K2]. cbn [map]. apply andb_true_iff in BL as [B1 B2]. destruct (IH ks' B2 K2) as (F1 & F2 & I1 & I2 & E). destruct (item_share i q (s, H) B1 P K1) as (J1 & J2 & EJ). cbn [fst snd] in J2, EJ.
      destruct (sum_cons _ _ J1 I1 F1) as [S1 ES1]. destruct (sum_cons _ _ J2 I2 F2) as [S2 ES2]. split; [constructor; assumption|]. split; [constructor; assumption|]. split; [exact S1|]. split; [exact S2|].
      rewrite ES1, ES2, E, EJ, Z.mul_add_distr_l, smul_add. apply four.
  Qed.
  Lemma sigs_same l Ss Ss' : forallb is_bytes (map i_sig l) = true -> Forall2 (fun i S => sig_bytes (i_sig i) S) l Ss -> Forall2 (fun i S => sig_bytes (i_sig i) S) l Ss' -> Ss = Ss'.
  Proof.
    intros BL F. revert Ss' BL. induction F as [|i S l Ss H F IH]; intros Ss' BL F'; [destruct Ss'; [reflexivity|inversion F']|]. destruct Ss' as [|S' Ss'']; [inversion F'|]. apply pair_cons in F' as [H' F'']. cbn [map forallb] in BL. apply andb_true_iff in BL as [B1 B2].
    rewrite (sig_unique sqrt sqrt_ok _ _ _ B1 H H'), (IH _ B2 F''). reflexivity.
  Qed.
  Lemma weight_ok (P : sub g1_curve) w : smul (a * w) P = smul a (smul (w mod r) P).
  Proof. rewrite <- smul_mul. apply smul_same. rewrite Z.mul_mod_idemp_r by exact r_nz. reflexivity. Qed.
  Lemma screen_answer l qs Ss : forallb is_bytes (map i_key l) = true -> forallb is_bytes (map i_sig l) = true -> Forall2 plays l qs -> Forall2 (fun i S => sig_bytes (i_sig i) S) l Ss -> 0 < weight qs ->
    c_batch_verify GT e L compat ped sqrt sqrt2 l c f = Some true -> answers A Y (screened B Ss qs).
  Proof.
    intros B1 B2 PL FS W V. apply (batch_verify_iff_c GT e L compat ped sqrt sqrt2 ped_bytes sqrt_ok sqrt2_ok l c f B1 B2) in V as (_ & ks & Ss' & FK & FS' & E). rewrite <- (sigs_same l Ss Ss' B2 FS FS') in E.
    destruct (sum_shares l qs ks B1 PL FK) as (_ & _ & I1 & I2 & ES). exists a. split; [exact a_range|]. split; [exact A_is|]. unfold screened. rewrite E.
    set (X := g1_sum (map (share B) qs)) in *. set (T := g1_sum (map due ks)) in *.
    assert (A1 : g1_add T (g1_neg X) = to1 (ga (of1 T) (gn (of1 X)))) by (rewrite to1_add, to1_neg, (to1_of1 _ I1), (to1_of1 _ I2); reflexivity).
    rewrite A1, ES, <- ga_assoc, gn_r, ga_0_r, weight_ok. fold (weight qs).
    assert (B0 : 0 < weight qs < r) by (split; [exact W|apply Z.mod_pos_bound; reflexivity]).
    rewrite <- (to1_of1 (divided _ _)) by (apply in_divided, to1_in). rewrite of1_divided by apply to1_in. rewrite of1_to1, (undo (of1 Y) _ a B0), (to1_smul a _ (proj1 a_range)), (to1_of1 Y Y_in). reflexivity.
  Qed.
End Screen.
Section Results.
  Context (GT : grp) (e : g1_point -> g2_point -> GT) (L : bilinear e).
  Context (compat : bool) (ped : bytes -> result bytes) (sqrt : fq -> option fq) (sqrt2 : fq2 -> option fq2).
  Hypothesis ped_bytes : forall m out, ped m = Ok out -> is_bytes out = true.
  Hypothesis sqrt_ok : sqrt_spec qmul sqrt.
  Hypothesis sqrt2_ok : sqrt_spec q2mul sqrt2.
  Lemma screening l c f A Y B qs Ss : forallb is_bytes (map i_key l) = true -> forallb is_bytes (map i_sig l) = true -> in_g1 Y -> answers A g1_generator B ->
    Forall2 (ScreenSpec.plays (hashed compat ped sqrt c f SIG_DOMAIN) (proved (hashed compat ped sqrt) (c_verify_pop GT e L compat sqrt sqrt2) Y) A Y) l qs -> Forall2 (fun i S => sig_bytes (i_sig i) S) l Ss -> 0 < weight qs ->
    c_batch_verify GT e L compat ped sqrt sqrt2 l c f = Some true -> answers A Y (screened B Ss qs).
  Proof. intros B1 B2 IY (a & Ra & EA & EB). exact (screen_answer GT e L compat ped sqrt sqrt2 ped_bytes sqrt_ok sqrt2_ok c f A Y B a Ra EA EB IY l qs Ss B1 B2). Qed.
  Lemma none_first l : g1_sum (None :: l) = g1_sum l.
  Proof. unfold g1_sum, ec_sum. cbn [fold_left]. reflexivity. Qed.
  Lemma no_weight qs : Forall (fun q => unsigned q = 0) qs -> fold_right Z.add 0 (map unsigned qs) = 0.
  Proof. induction 1 as [|q qs E _ IH]; [reflexivity|]. cbn [map fold_right]. rewrite E, IH. reflexivity. Qed.
  Lemma weight_one k qs : 0 < k < r -> Forall (fun q => unsigned q = 0) qs -> 0 < weight (Unsigned k :: qs) /\ weight (Unsigned k :: qs) = k.
  Proof.
    intros K F0. assert (W : weight (Unsigned k :: qs) = k) by (unfold weight; cbn [map fold_right unsigned]; rewrite (no_weight qs F0), Z.add_0_r; apply Z.mod_small; split; [apply Z.lt_le_incl, K|apply K]).
    split; [rewrite W; apply K|exact W].
  Qed.
  Lemma screened_one k B Ss qs : weight (Unsigned k :: qs) = k -> screened B Ss (Unsigned k :: qs) = divided k (g1_add (g1_sum Ss) (g1_neg (g1_sum (map (share B) qs)))).
  Proof. intros W. unfold screened. rewrite W. cbn [map share]. rewrite none_first. reflexivity. Qed.
  Lemma unsigned_message i l c f A Y B k qs Ss : forallb is_bytes (map i_key (i :: l)) = true -> forallb is_bytes (map i_sig (i :: l)) = true -> in_g1 Y -> answers A g1_generator B ->
    key_bytes (i_key i) A -> 0 < k < r -> hashed compat ped sqrt c f SIG_DOMAIN (i_msg i) (i_extra i) (g1_times k Y) ->
    Forall2 (ScreenSpec.plays (hashed compat ped sqrt c f SIG_DOMAIN) (proved (hashed compat ped sqrt) (c_verify_pop GT e L compat sqrt sqrt2) Y) A Y) l qs -> Forall (fun q => unsigned q = 0) qs ->
    Forall2 (fun i S => sig_bytes (i_sig i) S) (i :: l) Ss -> c_batch_verify GT e L compat ped sqrt sqrt2 (i :: l) c f = Some true ->
    answers A Y (divided k (g1_add (g1_sum Ss) (g1_neg (g1_sum (map (share B) qs))))).
  Proof.
    intros B1 B2 IY AB KA K HH PL F0 FS V. destruct (weight_one k qs K F0) as (W1 & W2). rewrite <- (screened_one k B Ss qs W2).
    refine (screening (i :: l) c f A Y B (Unsigned k :: qs) Ss B1 B2 IY AB _ FS W1 V). constructor; [|exact PL]. split; [exact KA|]. split; [apply Z.lt_le_incl, K|exact HH].
  Qed.
End Results.
