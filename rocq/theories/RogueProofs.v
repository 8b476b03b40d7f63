(** Proofs for C75. *)
From Coq Require Import Permutation.
From Verif Require Import Base Constants Group Field Curve BlsModel BlsSpec BlsProofs CacheModel CacheSpec CacheProofs PointModel EncodingModel HasherModel HashCurveModel HashCurveSpec HashCurveProofs CodecModel CodecSpec CodecProofs PropCodec
  FfiModel FfiSpec PropFfi FfiDataProofs FfiRestProofs CurveGroups CurveCount CurveOrder TwistOrder TwistCount OrderSpec OrderProofs TwistSpec TwistProofs RealSpec RealModel RealProofs PropReal RealBatchSpec RealSessionModel RealSessionSpec RealSessionProofs RogueSpec.

Lemma to1_add (P Q : sub g1_curve) : to1 (ga P Q) = g1_add (to1 P) (to1 Q).
Proof. exact (g1_to_add (sub_val P) (sub_val Q)). Qed.
Lemma in_sum Ps : Forall in_g2 Ps -> in_g2 (fold_right g2_add None Ps).
Proof. intros F. rewrite <- (to2_sum Ps F). apply to2_in. Qed.
Lemma rogue_exists k Ps : 0 <= k < r -> Forall in_g2 Ps -> exists R, rogue k Ps R.
Proof. intros K F. apply minus_exists; [exists k; split; [exact K|reflexivity]|exact (in_sum Ps F)]. Qed.
(** Both are differences in the subgroups. *)
Lemma rogue_value k Ps R : 0 <= k < r -> Forall in_g2 Ps -> rogue k Ps R -> ga (of2 R) (of2 (fold_right g2_add None Ps)) = smul k (sub_in g2_gen).
Proof.
  intros K F (I & E). apply to2_inj. rewrite to2_add, (to2_of2 R I), (to2_of2 _ (in_sum Ps F)), E, (to2_smul k _ (proj1 K)), to2_gen. reflexivity.
Qed.
Lemma complement_value k H S T : 0 <= k -> in_g1 H -> in_g1 S -> complement k H S T -> ga (of1 T) (of1 S) = smul k (of1 H).
Proof. intros K I1 I2 (I & E). apply to1_inj. rewrite to1_add, (to1_of1 T I), (to1_of1 S I2), E, (to1_smul k _ K), (to1_of1 H I1). reflexivity. Qed.
Lemma complement_exists k H S : 0 <= k -> in_g1 H -> in_g1 S -> exists T, complement k H S T.
Proof.
  intros K I1 I2. exists (to1 (ga (smul k (of1 H)) (gn (of1 S)))). split; [apply to1_in|]. rewrite <- (to1_of1 S I2) at 2. rewrite <- to1_add, <- ga_assoc, gn_l, ga_0_r, (to1_smul k _ K), (to1_of1 H I1). reflexivity.
Qed.
Lemma move {G : grp} (a b c : G) : ga a b = c -> a = ga c (gn b).
Proof. intros <-. rewrite <- ga_assoc, (ga_comm _ b), gn_l, ga_0_r. reflexivity. Qed.
Lemma signature_on_minus {pr : pairing} (H : G1 pr) (P Q : G2 pr) (S T : G1 pr) k : ga P Q = smul k (gen2 (p := pr)) -> ga T S = smul k H -> signature_on H P S -> signature_on H Q T.
Proof.
  intros EP ET (j & -> & ->). exists (k - j). split; [|rewrite smul_sub; apply move, ET]. rewrite ga_comm in EP. exact (eq_trans (move _ _ _ EP) (eq_sym (smul_sub k j gen2))).
Qed.

Section Rogue.
  Context (GT : grp) (e : g1_point -> g2_point -> GT) (L : bilinear e).
  Context (compat : bool) (ped : bytes -> result bytes) (sqrt : fq -> option fq) (sqrt2 : fq2 -> option fq2).
  Hypothesis ped_bytes : forall m out, ped m = Ok out -> is_bytes out = true.
  Hypothesis sqrt_ok : sqrt_spec qmul sqrt.
  Hypothesis sqrt2_ok : sqrt_spec q2mul sqrt2.
  Notation pr := (real_pairing GT e L).
  Notation verify_pop := (c_verify_pop GT e L compat sqrt sqrt2).
  Lemma read_signature_of sig S : is_bytes sig = true -> sig_bytes sig S -> read_signature sqrt sig = Returns true (Some S).
  Proof. intros B H. apply (read_signature_iff sqrt sqrt_ok _ _ B), H. Qed.
  Lemma pop_iff P S pk sig m H : is_bytes pk = true -> is_bytes sig = true -> key_bytes pk P -> sig_bytes sig S -> hashed compat ped sqrt false false POP_DOMAIN m [] H ->
    (verify_pop pk sig m = Some true <-> signature_on (pr := pr) (of1 H) (of2 P) (of1 S)).
  Proof.
    intros B1 B2 KP KS HH. pose proof (proj1 (hashed_in compat ped sqrt ped_bytes sqrt_ok _ _ _ _ _ _ HH)) as IH.
    rewrite (verify_pop_iff_c GT e L compat ped sqrt sqrt2 ped_bytes sqrt_ok sqrt2_ok pk sig m B1 B2). split.
    - intros (sk & H' & R & HH' & L1 & W1 & L2 & W2). rewrite (hashed_unique _ _ _ _ _ _ _ _ _ _ HH' HH) in *.
      assert (I1 : in_g2 (g2_times sk g2_generator)) by (exists sk; split; [exact R|reflexivity]).
      assert (I2 : in_g1 (g1_times sk H)) by (destruct (in_g1_times sk H (proj1 R) IH) as (s & <-); apply to1_in).
      apply (sound_pair GT e L P S sk H (direct_g1 GT e L compat sqrt) R IH).
      + apply (key_bytes_unique sqrt2 sqrt2_ok _ _ _ B1 KP). repeat split; assumption.
      + pose proof (proj2 (read_signature_iff sqrt sqrt_ok _ _ B2) (conj L2 (conj W2 I2))) as E. rewrite (read_signature_of sig S B2 KS) in E. congruence.
    - intros (k & EP & ES). destruct KP as (L1 & W1 & I1), KS as (L2 & W2 & I2). exists (k mod r), H.
      assert (R : 0 <= k mod r < r) by (apply Z.mod_pos_bound; reflexivity). split; [exact R|]. split; [exact HH|].
      assert (P = g2_times (k mod r) g2_generator) as <-.
      { rewrite <- (to2_of2 P I1), EP. cbn [gen2 real_pairing]. rewrite (sub_mod g2_curve k), (to2_smul _ _ (proj1 R)), to2_gen. reflexivity. }
      assert (S = g1_times (k mod r) H) as <-.
      { rewrite <- (to1_of1 S I2), ES. cbn [G1 real_pairing]. rewrite (sub_mod g1_curve k), (to1_smul _ _ (proj1 R)), (to1_of1 H IH). reflexivity. }
      repeat split; assumption.
  Qed.
  Lemma sig_bytes_ser S : in_g1 S -> is_bytes (signature_serialize S) = true /\ sig_bytes (signature_serialize S) S.
  Proof.
    intros I. assert (BB : is_bytes (signature_serialize S) = true) by (unfold signature_serialize, affine_serialize; destruct S as [[X Y]|]; apply fq_write_is_bytes).
    split; [exact BB|]. apply (read_signature_iff sqrt sqrt_ok _ _ BB). rewrite <- (app_nil_r (signature_serialize S)). apply (read_signature_ser sqrt sqrt_ok); [exact I|reflexivity].
  Qed.
  Lemma key_bytes_exact P : in_g2 P -> is_bytes (public_key_serialize P) = true /\ key_bytes (public_key_serialize P) P.
  Proof. intros I. pose proof (key_bytes_ser sqrt2 sqrt2_ok P [] I eq_refl) as H. rewrite app_nil_r in H. exact H. Qed.
  Lemma pop_transfer k Ps R S T m H : 0 <= k < r -> Forall in_g2 Ps -> rogue k Ps R -> hashed compat ped sqrt false false POP_DOMAIN m [] H -> in_g1 S -> complement k H S T ->
    (verify_pop (public_key_serialize R) (signature_serialize S) m = Some true <-> verify_pop (public_key_serialize (fold_right g2_add None Ps)) (signature_serialize T) m = Some true).
  Proof.
    intros K F RR HH IS CC. pose proof (proj1 (hashed_in compat ped sqrt ped_bytes sqrt_ok _ _ _ _ _ _ HH)) as IH.
    destruct (key_bytes_exact R (proj1 RR)) as (B1 & K1). destruct (key_bytes_exact _ (in_sum Ps F)) as (B2 & K2). destruct (sig_bytes_ser S IS) as (B3 & K3). destruct (sig_bytes_ser T (proj1 CC)) as (B4 & K4).
    rewrite (pop_iff _ _ _ _ m H B1 B3 K1 K3 HH), (pop_iff _ _ _ _ m H B2 B4 K2 K4 HH). pose proof (rogue_value k Ps R K F RR) as EP. pose proof (complement_value k H S T (proj1 K) IH IS CC) as ET.
    split; intros V.
    - exact (signature_on_minus (pr := pr) _ _ _ _ _ k EP ET V).
    - rewrite ga_comm in EP. rewrite ga_comm in ET. exact (signature_on_minus (pr := pr) _ _ _ _ _ k EP ET V).
  Qed.
  Lemma pop_stolen k pk pop P S m H : 0 <= k < r -> is_bytes pk = true -> is_bytes pop = true -> key_bytes pk P -> sig_bytes pop S -> hashed compat ped sqrt false false POP_DOMAIN m [] H ->
    verify_pop pk pop m = Some true -> exists R T, rogue k [P] R /\ complement k H S T /\ verify_pop (public_key_serialize R) (signature_serialize T) m = Some true.
  Proof.
    intros K B1 B2 KP KS HH V. pose proof (proj1 (hashed_in compat ped sqrt ped_bytes sqrt_ok _ _ _ _ _ _ HH)) as IH. assert (F : Forall in_g2 [P]) by (constructor; [apply KP|constructor]).
    destruct (rogue_exists k [P] K F) as (R & RR). destruct (complement_exists k H S (proj1 K) IH (proj2 (proj2 KS))) as (T & CC). exists R, T. split; [exact RR|]. split; [exact CC|].
    destruct (key_bytes_exact R (proj1 RR)) as (B3 & K3). destruct (sig_bytes_ser T (proj1 CC)) as (B4 & K4). apply (pop_iff _ _ _ _ m H B3 B4 K3 K4 HH).
    apply (pop_iff _ _ _ _ m H B1 B2 KP KS HH) in V. pose proof (rogue_value k [P] R K F RR) as EP. pose proof (complement_value k H S T (proj1 K) IH (proj2 (proj2 KS)) CC) as ET.
    cbn [fold_right] in EP. rewrite g2_zero_r in EP by apply KP. rewrite ga_comm in EP. exact (signature_on_minus (pr := pr) _ _ _ _ _ k EP ET V).
  Qed.
  Context (fh : fq2 -> Z).
  Notation E := (real_cache sqrt2 fh).
  Lemma rogue_accepted qs o1 o2 b victims Ps R sk apk : Forall proper qs -> fair (E := E) o1 -> fair (E := E) o2 -> is_bytes sk = true ->
    Forall (fun v => is_bytes (g_bytes v) = true) victims -> Forall2 key_bytes (map g_bytes victims) Ps -> NoDup Ps -> ~ In R Ps -> rogue (number (firstn 32 sk)) Ps R ->
    c_public_key GT e L sk = Some apk ->
    snd (serve (after qs) (Aggregate (sqrt2 := sqrt2) (fh := fh) o1 o2 (Given b (public_key_serialize R) :: victims))) = Some apk /\
    forall m x c f sig, c_sign GT e L compat ped sqrt sk m x c f = Some sig -> c_verify GT e L compat ped sqrt sqrt2 apk sig m x c f = Some true.
  Proof.
    intros Fq F1 F2 B BV FV ND NI (IR & ER) HP. split.
    - destruct (key_bytes_exact R IR) as (B1 & K1). apply (serve_owed sqrt2 fh sqrt2_ok qs _ apk Fq); [split; [exact F1|split; [exact F2|constructor; [exact B1|exact BV]]]|].
      apply (public_key_iff_c GT e L sk apk B) in HP as (_ & _ & ->). exists (g2_times (number (firstn 32 sk)) g2_generator). split; [|reflexivity].
      exists (R :: Ps), (R :: Ps). split; [rewrite map_cons; constructor; [exact K1|exact FV]|]. split; [constructor; [exact NI|exact ND]|]. split; [reflexivity|]. cbn [fold_right]. symmetry. exact ER.
    - intros m x c f sig HS. pose proof (C70_round_trip GT e L compat ped sqrt sqrt2 ped_bytes sqrt_ok sqrt2_ok sk apk sig m x c f [] [] B eq_refl eq_refl HP HS) as V. rewrite !app_nil_r in V. exact V.
  Qed.
End Rogue.
