(** Proofs for C70. *)
From Coq Require Import Znumtheory Field FinFun.
From Verif Require Import Base Constants Group Field Curve BlsModel BlsSpec BlsProofs PropBls CacheModel CacheSpec CacheProofs PointModel EncodingModel HasherModel HashCurveModel HashCurveSpec HashCurveProofs CodecModel CodecSpec PropCodec
  FfiModel FfiSpec PropFfi FfiDataProofs FfiRestProofs CurveGroups CurveCount CurveOrder TwistOrder TwistCount OrderSpec OrderProofs TwistSpec TwistProofs RealSpec RealModel.

Add Field Fq2r : fq2_field.

Lemma to1_inj P Q : to1 P = to1 Q -> P = Q. Proof. intros H. apply sub_ext, g1_to_eq, H. Qed.
Lemma to2_inj P Q : to2 P = to2 Q -> P = Q. Proof. intros H. apply sub_ext, g2_to_eq, H. Qed.
Lemma in_g1_of P : in_g1 P -> exists Q, smul r Q = gz /\ P = g1_to Q.
Proof. intros H. pose proof H as (k & Hk & E). rewrite <- g1_to_gen, g1_times_to in E by (exact (proj1 Hk)). exists (smul k g1_gen). split; [apply in_g1_iff; rewrite <- E; exact H|exact E]. Qed.
Lemma in_g2_of P : in_g2 P -> exists Q, smul r Q = gz /\ P = g2_to Q.
Proof. intros H. pose proof H as (k & Hk & E). rewrite <- g2_to_gen, g2_times_to in E by (exact (proj1 Hk)). exists (smul k g2_gen). split; [apply in_g2_iff; rewrite <- E; exact H|exact E]. Qed.
Lemma to1_of1 P : in_g1 P -> to1 (of1 P) = P.
Proof. intros H. destruct (in_g1_of P H) as (Q & K & ->). unfold to1, of1. rewrite g1_of_to, (sub_val_in _ _ K). reflexivity. Qed.
Lemma to2_of2 P : in_g2 P -> to2 (of2 P) = P.
Proof. intros H. destruct (in_g2_of P H) as (Q & K & ->). unfold to2, of2. rewrite g2_of_to, (sub_val_in _ _ K). reflexivity. Qed.
Lemma of1_to1 P : of1 (to1 P) = P. Proof. apply to1_inj, to1_of1, to1_in. Qed.
Lemma of2_to2 P : of2 (to2 P) = P. Proof. apply to2_inj, to2_of2, to2_in. Qed.
Lemma to1_smul k P : 0 <= k -> to1 (smul k P) = g1_times k (to1 P).
Proof. intros H. unfold to1. rewrite sub_val_smul, g1_times_to by exact H. reflexivity. Qed.
Lemma to2_smul k P : 0 <= k -> to2 (smul k P) = g2_times k (to2 P).
Proof. intros H. unfold to2. rewrite sub_val_smul, g2_times_to by exact H. reflexivity. Qed.
Lemma to2_gen : to2 (sub_in g2_gen) = g2_generator. Proof. unfold to2. rewrite (sub_val_in _ _ gen2_order). apply g2_to_gen. Qed.
Lemma sub_mod (G : grp) k (P : sub G) : smul k P = smul (k mod r) P. Proof. exact (Endo.eigen_mod r k P (ord_sub G P)). Qed.

Section Real.
  Context (GT : grp) (e : g1_point -> g2_point -> GT) (L : bilinear e).
  Context (compat : bool) (ped : bytes -> result bytes) (sqrt : fq -> option fq) (sqrt2 : fq2 -> option fq2).
  Hypothesis ped_bytes : forall m out, ped m = Ok out -> is_bytes out = true.
  Hypothesis sqrt_ok : sqrt_spec qmul sqrt.
  Hypothesis sqrt2_ok : sqrt_spec q2mul sqrt2.
  Notation pr := (real_pairing GT e L).
  Notation direct := (direct_g1 GT e L compat sqrt).
  Notation composite := (composite_g1 GT e L compat ped sqrt).
  Notation cip22 := (cip22_g1 GT e L compat ped sqrt).
  Notation hashed := (hashed compat ped sqrt).
  (** ** The hash *)
  Lemma lifted (att : bytes -> bytes -> bytes -> result (g1_curve * Z)) d m x (Q : sub g1_curve) : (forall P c, att d m x = Ok (P, c) -> smul r P = gz) ->
    rbind (rbind (att d m x) (fun res => Ok (fst res))) (fun P => Ok (sub_in P)) = Ok Q <-> exists P c, to1 Q = g1_to P /\ att d m x = Ok (P, c).
  Proof.
    intros K. destruct (att d m x) as [[P c]|err|] eqn:E; cbn [rbind fst].
    - split.
      + intros H. exists P, c. split; [|reflexivity]. assert (sub_in P = Q) as <- by congruence. unfold to1. rewrite (sub_val_in _ _ (K P c eq_refl)). reflexivity.
      + intros (P' & c' & T & H). assert (P' = P) as -> by congruence. apply f_equal. apply to1_inj. unfold to1 at 1. rewrite (sub_val_in _ _ (K P c eq_refl)). symmetry. exact T.
    - split; [intros H; discriminate H|intros (P & c & _ & H); discriminate H].
    - split; [intros H; discriminate H|intros (P & c & _ & H); discriminate H].
  Qed.
  Lemma killed_plain h d m x P c : bytes_hasher h -> g1_attempt compat h g1_curve g1_of G1_COFACTOR sqrt d m x = Ok (P, c) -> smul r P = gz.
  Proof. intros Hb H. apply in_g1_iff. exact (proj1 (hash_in_g1 compat h sqrt d m x P c Hb sqrt_ok (or_introl H))). Qed.
  Lemma killed_cip22 h d m x P c : bytes_hasher h -> g1_attempt_cip22 compat h g1_curve g1_of G1_COFACTOR sqrt d m x = Ok (P, c) -> smul r P = gz.
  Proof. intros Hb H. apply in_g1_iff. exact (proj1 (hash_in_g1 compat h sqrt d m x P c Hb sqrt_ok (or_intror H))). Qed.
  Lemma hash_value c f h d m x (Q : sub g1_curve) : selected direct composite cip22 c f h -> (h d m x = Ok Q <-> hashed c f d m x (to1 Q)).
  Proof.
    unfold RealSpec.hashed. intros S. destruct S.
    - apply (lifted (g1_attempt compat direct_hasher g1_curve g1_of G1_COFACTOR sqrt)). intros P n. apply killed_plain, direct_bytes.
    - apply (lifted (g1_attempt compat (composite_hasher ped) g1_curve g1_of G1_COFACTOR sqrt)). intros P n. apply killed_plain, composite_bytes, ped_bytes.
    - apply (lifted (g1_attempt_cip22 compat (composite_hasher ped) g1_curve g1_of G1_COFACTOR sqrt)). intros P n. apply killed_cip22, composite_bytes, ped_bytes.
  Qed.
  Lemma hashed_sel c f d m x H : hashed c f d m x H -> exists h, selected direct composite cip22 c f h.
  Proof. intros (P & n & _ & K). destruct c, f; [exists cip22; constructor|exists composite; constructor|destruct K|exists direct; constructor]. Qed.
  Lemma hashed_in c f d m x H : hashed c f d m x H -> in_g1 H /\ H <> None.
  Proof.
    intros (P & n & -> & K). destruct c, f; [| |destruct K|].
    - exact (hash_in_g1 compat _ sqrt d m x P n (composite_bytes ped ped_bytes) sqrt_ok (or_intror K)).
    - exact (hash_in_g1 compat _ sqrt d m x P n (composite_bytes ped ped_bytes) sqrt_ok (or_introl K)).
    - exact (hash_in_g1 compat _ sqrt d m x P n direct_bytes sqrt_ok (or_introl K)).
  Qed.
  Lemma hashed_unique c f d m x H H' : hashed c f d m x H -> hashed c f d m x H' -> H = H'.
  Proof. intros (P & n & -> & K) (P' & n' & -> & K'). destruct c, f; [| |destruct K|]; rewrite K in K'; congruence. Qed.
  (** ** Validity in coordinates *)
  Lemma valid_points c f h d m x (pk : sub g2_curve) (sig : sub g1_curve) : selected direct composite cip22 c f h ->
    (valid_in (pr := pr) h d m x pk sig <-> exists sk H, 0 <= sk < r /\ hashed c f d m x H /\ to2 pk = g2_times sk g2_generator /\ to1 sig = g1_times sk H).
  Proof.
    intros S. split.
    - intros (Q & HQ & k & D & E). exists (k mod r), (to1 Q). pose proof (Z.mod_pos_bound k r ltac:(reflexivity)) as B. split; [exact B|]. split; [apply (hash_value _ _ _ _ _ _ _ S), HQ|].
      pose proof (eq_trans D (sub_mod g2_curve k (sub_in g2_gen)) : pk = _) as D'. pose proof (eq_trans E (sub_mod g1_curve k Q) : sig = _) as E'. clear D E. destruct B as [B _].
      rewrite D', E'. split; [rewrite (to2_smul _ _ B), to2_gen; reflexivity|exact (to1_smul _ _ B)].
    - intros (sk & H & B & HH & D & E). pose proof (proj1 (hashed_in _ _ _ _ _ _ HH)) as I. rewrite <- (to1_of1 H I) in HH. exists (of1 H). split; [apply (hash_value _ _ _ _ _ _ _ S), HH|].
      exists sk. split; [apply to2_inj; cbn [gen2 real_pairing]; rewrite to2_smul by apply B; rewrite to2_gen; exact D|].
      apply to1_inj. rewrite to1_smul by apply B. rewrite (to1_of1 H I). exact E.
  Qed.
  (** ** Calls *)
  Lemma then_some {A B} (x : reply A) (f : A -> option B) v : then_call x f = Some v <-> exists a, x = Returns true (Some a) /\ f a = Some v.
  Proof.
    split.
    - destruct x as [b [a|]|]; [destruct b|destruct b|]; cbn [then_call]; intros H; try discriminate H. exists a. split; [reflexivity|exact H].
    - intros (a & -> & H). exact H.
  Qed.
  Lemma serialized {T} (ser : T -> bytes) x out : then_call (ffi_serialize ser x) (fun o => Some (fst o)) = Some out <-> out = ser x.
  Proof.
    rewrite then_some. split.
    - intros ([l n] & H & E). apply serialize_iff in H as [-> _]. cbn [fst] in E. congruence.
    - intros ->. eexists (_, _). split; [apply serialize_iff; split; reflexivity|reflexivity].
  Qed.
  Lemma read_signature_iff l S : is_bytes l = true -> (read_signature sqrt l = Returns true (Some S) <-> (48 <= length l)%nat /\ wire_g1 (number (firstn 48 l)) S /\ in_g1 S).
  Proof. intros B. unfold read_signature. rewrite deserialize_iff. apply signature_in_g1; assumption. Qed.
  Lemma read_key_iff l P : is_bytes l = true -> (read_key sqrt2 l = Returns true (Some P) <-> (96 <= length l)%nat /\ wire_g2 (number (firstn 96 l)) P /\ in_g2 P).
  Proof. intros B. unfold read_key. rewrite deserialize_iff. apply key_in_g2; assumption. Qed.
  Lemma number_nonneg n l : is_bytes l = true -> 0 <= number (firstn n l).
  Proof. intros B. apply PointProofs.number_bound. unfold is_bytes in *. rewrite forallb_forall in *. intros y Y. apply B. rewrite <- (firstn_skipn n l). apply in_or_app. left. exact Y. Qed.
  Lemma public_value k : 0 <= k -> to2 (to_public (pr := pr) k) = g2_times k g2_generator.
  Proof. intros H. rewrite <- to2_gen. exact (to2_smul k (sub_in g2_gen) H). Qed.
  Lemma public_call k (pk : G2 pr) : ffi_private_key_to_public_key k = Returns true (Some pk) <-> pk = to_public k.
  Proof. exact (public_key_iff k pk). Qed.
  Lemma private_read sk k : is_bytes sk = true -> (ffi_deserialize private_key_deserialize sk = Returns true (Some k) <-> (32 <= length sk)%nat /\ k = number (firstn 32 sk) /\ k < r).
  Proof. intros B. rewrite deserialize_iff. apply C30_private_key_accepts, B. Qed.
  Lemma public_key_iff_c sk out : is_bytes sk = true ->
    (c_public_key GT e L sk = Some out <-> (32 <= length sk)%nat /\ number (firstn 32 sk) < r /\ out = public_key_serialize (g2_times (number (firstn 32 sk)) g2_generator)).
  Proof.
    intros B. pose proof (number_nonneg 32 sk B) as NN. unfold c_public_key. rewrite then_some. split.
    - intros (k & H & E). apply private_read in H as (H1 & -> & H2); [|exact B]. split; [exact H1|]. split; [exact H2|].
      apply then_some in E as (pk & H & E). apply serialized in E as ->. apply public_call in H as ->. rewrite public_value by exact NN. reflexivity.
    - intros (H1 & H2 & ->). exists (number (firstn 32 sk)). split; [apply private_read; [exact B|]; split; [exact H1|]; split; [reflexivity|exact H2]|].
      apply then_some. exists (to_public (number (firstn 32 sk))). split; [apply public_call; reflexivity|]. apply serialized. rewrite public_value by exact NN. reflexivity.
  Qed.
  (** ** Signing *)
  Lemma sign_call k m x c f (s : G1 pr) : 0 <= k ->
    (ffi_sign_message direct composite cip22 k m x c f = Returns true (Some s) <-> exists H, hashed c f SIG_DOMAIN m x H /\ to1 s = g1_times k H).
  Proof.
    intros NN. split.
    - intros E. destruct (C49_sign_true_writes _ _ _ _ _ _ _ _ _ _ E) as (h & s' & S & E' & H & HH & Hs). assert (s' = s) as -> by congruence.
      exists (to1 H). split; [apply (hash_value _ _ _ _ _ _ _ S), HH|]. rewrite Hs. exact (to1_smul k H NN).
    - intros (H & HH & E). destruct (hashed_sel _ _ _ _ _ _ HH) as (h & S). apply (C49_sign_value _ _ _ _ _ _ _ _ _ _ _ S).
      pose proof (proj1 (hashed_in _ _ _ _ _ _ HH)) as I. exists (of1 H). split; [apply (hash_value _ _ _ _ _ _ _ S); rewrite (to1_of1 H I); exact HH|].
      apply to1_inj. rewrite E. symmetry. etransitivity; [exact (to1_smul k (of1 H) NN)|]. rewrite (to1_of1 H I). reflexivity.
  Qed.
  Lemma in_g1_times k H : 0 <= k -> in_g1 H -> exists s : sub g1_curve, to1 s = g1_times k H.
  Proof. intros K I. exists (smul k (of1 H)). rewrite (to1_smul _ _ K), (to1_of1 H I). reflexivity. Qed.
  Lemma sign_iff_c sk m x c f out : is_bytes sk = true ->
    (c_sign GT e L compat ped sqrt sk m x c f = Some out <->
     exists H, (32 <= length sk)%nat /\ number (firstn 32 sk) < r /\ hashed c f SIG_DOMAIN m x H /\ out = signature_serialize (g1_times (number (firstn 32 sk)) H)).
  Proof.
    intros B. pose proof (number_nonneg 32 sk B) as NN. unfold c_sign. rewrite then_some. split.
    - intros (k & H & E). apply private_read in H as (H1 & -> & H2); [|exact B]. apply then_some in E as (s & H & E). apply sign_call in H as (P & HH & E'); [|exact NN].
      apply serialized in E as ->. exists P. rewrite E'. repeat (split; [assumption|]). reflexivity.
    - intros (H & H1 & H2 & HH & ->). exists (number (firstn 32 sk)). split; [apply private_read; [exact B|]; split; [exact H1|]; split; [reflexivity|exact H2]|].
      destruct (in_g1_times _ H NN (proj1 (hashed_in _ _ _ _ _ _ HH))) as (s & E). apply then_some. exists s. split; [apply sign_call; [exact NN|]; exists H; split; assumption|].
      apply serialized. rewrite E. reflexivity.
  Qed.
  (** ** Verifying *)
  Lemma verify_true c f m x P S : in_g2 P -> in_g1 S ->
    (ffi_verify_signature direct composite cip22 (of2 P) m x (of1 S) c f = Returns true (Some true) <->
     exists sk H, 0 <= sk < r /\ hashed c f SIG_DOMAIN m x H /\ P = g2_times sk g2_generator /\ S = g1_times sk H).
  Proof.
    intros IP IS. split.
    - intros E. assert (exists h, selected direct composite cip22 c f h) as (h & Sl).
      { destruct c, f; [exists cip22; constructor|exists composite; constructor|discriminate E|exists direct; constructor]. }
      apply (C49_verify_selected _ _ _ _ _ _ _ _ _ _ _ Sl) in E. apply (valid_points _ _ _ _ _ _ _ _ Sl) in E as (sk & H & B & HH & D & E).
      rewrite (to2_of2 P IP) in D. rewrite (to1_of1 S IS) in E. exists sk, H. repeat (split; [assumption|]). assumption.
    - intros (sk & H & B & HH & D & E). destruct (hashed_sel _ _ _ _ _ _ HH) as (h & Sl). apply (C49_verify_selected _ _ _ _ _ _ _ _ _ _ _ Sl). apply (valid_points _ _ _ _ _ _ _ _ Sl).
      exists sk, H. split; [exact B|]. split; [exact HH|]. split; [rewrite (to2_of2 P IP); exact D|rewrite (to1_of1 S IS); exact E].
  Qed.
  Lemma verify_iff_c pk sig m x c f : is_bytes pk = true -> is_bytes sig = true ->
    (c_verify GT e L compat ped sqrt sqrt2 pk sig m x c f = Some true <->
     exists sk H, 0 <= sk < r /\ hashed c f SIG_DOMAIN m x H /\ (96 <= length pk)%nat /\ wire_g2 (number (firstn 96 pk)) (g2_times sk g2_generator) /\
       (48 <= length sig)%nat /\ wire_g1 (number (firstn 48 sig)) (g1_times sk H)).
  Proof.
    intros B1 B2. unfold c_verify. rewrite then_some. split.
    - intros (P & H & E). apply read_key_iff in H as (L1 & W1 & I1); [|exact B1]. apply then_some in E as (S & H & E). apply read_signature_iff in H as (L2 & W2 & I2); [|exact B2].
      apply then_some in E as (v & H & E). assert (v = true) as -> by congruence. apply verify_true in H as (sk & H & B & HH & -> & ->); [|exact I1|exact I2].
      exists sk, H. repeat (split; [assumption|]). assumption.
    - intros (sk & H & B & HH & L1 & W1 & L2 & W2). pose proof (proj1 (hashed_in _ _ _ _ _ _ HH)) as IH.
      assert (I1 : in_g2 (g2_times sk g2_generator)) by (exists sk; split; [exact B|reflexivity]).
      assert (I2 : in_g1 (g1_times sk H)) by (destruct (in_g1_times sk H (proj1 B) IH) as (s & <-); apply to1_in).
      exists (g2_times sk g2_generator). split; [apply read_key_iff; [exact B1|]; split; [exact L1|]; split; [exact W1|exact I1]|].
      apply then_some. exists (g1_times sk H). split; [apply read_signature_iff; [exact B2|]; split; [exact L2|]; split; [exact W2|exact I2]|].
      apply then_some. exists true. split; [|reflexivity]. apply verify_true; [exact I1|exact I2|]. exists sk, H. repeat (split; [assumption|]). split; reflexivity.
  Qed.
  (** ** Proofs of possession *)
  Lemma sel_direct_c : selected direct composite cip22 false false direct. Proof. constructor. Qed.
  Lemma sign_pop_call k m (s : G1 pr) : 0 <= k ->
    (ffi_sign_pop direct k m = Returns true (Some s) <-> exists H, hashed false false POP_DOMAIN m [] H /\ to1 s = g1_times k H).
  Proof.
    intros NN. unfold ffi_sign_pop, sign_pop, sign_message, do_hash, bind, outcome. destruct (direct POP_DOMAIN m []) as [Q|err|] eqn:E; cbn [snd ret store convert_result_to_bool].
    - split.
      + intros H. assert (sign_raw k Q = s) as <- by congruence. exists (to1 Q). split; [apply (hash_value _ _ _ _ _ _ _ sel_direct_c), E|]. exact (to1_smul k Q NN).
      + intros (H & HH & E'). apply (hash_value _ _ _ _ _ _ _ sel_direct_c) in E. assert (H = to1 Q) as -> by exact (hashed_unique _ _ _ _ _ _ _ HH E).
        apply f_equal, f_equal. apply to1_inj. rewrite E'. exact (to1_smul k Q NN).
    - split; [intros H; discriminate H|]. intros (H & HH & _). pose proof (proj1 (hashed_in _ _ _ _ _ _ HH)) as I. rewrite <- (to1_of1 H I) in HH. apply (hash_value _ _ _ _ _ _ _ sel_direct_c) in HH. congruence.
    - split; [intros H; discriminate H|]. intros (H & HH & _). pose proof (proj1 (hashed_in _ _ _ _ _ _ HH)) as I. rewrite <- (to1_of1 H I) in HH. apply (hash_value _ _ _ _ _ _ _ sel_direct_c) in HH. congruence.
  Qed.
  Lemma verify_pop_true m P S : in_g2 P -> in_g1 S ->
    (ffi_verify_pop direct (of2 P) m (of1 S) = Returns true (Some true) <->
     exists sk H, 0 <= sk < r /\ hashed false false POP_DOMAIN m [] H /\ P = g2_times sk g2_generator /\ S = g1_times sk H).
  Proof.
    intros IP IS. assert (V : ffi_verify_pop direct (of2 P) m (of1 S) = Returns true (Some true) <-> valid_in (pr := pr) direct POP_DOMAIN m [] (of2 P) (of1 S)).
    { rewrite <- (C02_verify_pop_iff_valid pr direct). unfold ffi_verify_pop. destruct (outcome (verify_pop direct (of2 P) m (of1 S))) as [[]|err|]; cbn [to_is_ok store convert_result_to_bool];
        (split; intros H; [first [reflexivity|discriminate H]|first [reflexivity|discriminate H]]). }
    rewrite V, (valid_points _ _ _ _ _ _ _ _ sel_direct_c), (to2_of2 P IP), (to1_of1 S IS). reflexivity.
  Qed.
  Lemma sign_pop_iff_c sk m out : is_bytes sk = true ->
    (c_sign_pop GT e L compat sqrt sk m = Some out <->
     exists H, (32 <= length sk)%nat /\ number (firstn 32 sk) < r /\ hashed false false POP_DOMAIN m [] H /\ out = signature_serialize (g1_times (number (firstn 32 sk)) H)).
  Proof.
    intros B. pose proof (number_nonneg 32 sk B) as NN. unfold c_sign_pop. rewrite then_some. split.
    - intros (k & H & E). apply private_read in H as (H1 & -> & H2); [|exact B]. apply then_some in E as (s & H & E). apply sign_pop_call in H as (P & HH & E'); [|exact NN].
      apply serialized in E as ->. exists P. rewrite E'. repeat (split; [assumption|]). reflexivity.
    - intros (H & H1 & H2 & HH & ->). exists (number (firstn 32 sk)). split; [apply private_read; [exact B|]; split; [exact H1|]; split; [reflexivity|exact H2]|].
      destruct (in_g1_times _ H NN (proj1 (hashed_in _ _ _ _ _ _ HH))) as (s & E). apply then_some. exists s. split; [apply sign_pop_call; [exact NN|]; exists H; split; assumption|].
      apply serialized. rewrite E. reflexivity.
  Qed.
  Lemma verify_pop_iff_c pk sig m : is_bytes pk = true -> is_bytes sig = true ->
    (c_verify_pop GT e L compat sqrt sqrt2 pk sig m = Some true <->
     exists sk H, 0 <= sk < r /\ hashed false false POP_DOMAIN m [] H /\ (96 <= length pk)%nat /\ wire_g2 (number (firstn 96 pk)) (g2_times sk g2_generator) /\
       (48 <= length sig)%nat /\ wire_g1 (number (firstn 48 sig)) (g1_times sk H)).
  Proof.
    intros B1 B2. unfold c_verify_pop. rewrite then_some. split.
    - intros (P & H & E). apply read_key_iff in H as (L1 & W1 & I1); [|exact B1]. apply then_some in E as (S & H & E). apply read_signature_iff in H as (L2 & W2 & I2); [|exact B2].
      apply then_some in E as (v & H & E). assert (v = true) as -> by congruence. apply verify_pop_true in H as (sk & H & B & HH & -> & ->); [|exact I1|exact I2].
      exists sk, H. repeat (split; [assumption|]). assumption.
    - intros (sk & H & B & HH & L1 & W1 & L2 & W2). pose proof (proj1 (hashed_in _ _ _ _ _ _ HH)) as IH.
      assert (I1 : in_g2 (g2_times sk g2_generator)) by (exists sk; split; [exact B|reflexivity]).
      assert (I2 : in_g1 (g1_times sk H)) by (destruct (in_g1_times sk H (proj1 B) IH) as (s & <-); apply to1_in).
      exists (g2_times sk g2_generator). split; [apply read_key_iff; [exact B1|]; split; [exact L1|]; split; [exact W1|exact I1]|].
      apply then_some. exists (g1_times sk H). split; [apply read_signature_iff; [exact B2|]; split; [exact L2|]; split; [exact W2|exact I2]|].
      apply then_some. exists true. split; [|reflexivity]. apply verify_pop_true; [exact I1|exact I2|]. exists sk, H. repeat (split; [assumption|]). split; reflexivity.
  Qed.
  (** ** Round trips *)
  Lemma wire_eq1 Q : in_g1 (Some Q) -> g1_equation Q /\ g1_test Q = true.
  Proof.
    intros H. assert (O : on_g1 (Some Q) = true) by (destruct (in_g1_of _ H) as (R & _ & E); rewrite E; apply g1_to_on). split; [|apply test_ok; assumption].
    destruct Q as [X Y]. unfold on_g1, on_curve in O. apply qeqb_spec in O. exact O.
  Qed.
  Lemma wire_eq2 Q : in_g2 (Some Q) -> g2_equation Q /\ g2_test Q = true.
  Proof.
    intros H. assert (O : on_twist (Some Q) = true) by (destruct (in_g2_of _ H) as (R & _ & E); rewrite E; apply g2_to_on). split; [|apply test_ok2; assumption].
    destruct Q as [X Y]. unfold on_twist, on_curve in O. apply q2eqb_spec in O. exact O.
  Qed.
  Lemma read_signature_ser S rest : in_g1 S -> is_bytes rest = true -> read_signature sqrt (signature_serialize S ++ rest) = Returns true (Some S).
  Proof. intros I B. apply deserialize_iff. apply C30_signature_roundtrip; [exact sqrt_ok|exact B|]. intros Q ->. apply wire_eq1, I. Qed.
  Lemma read_key_ser P rest : in_g2 P -> is_bytes rest = true -> read_key sqrt2 (public_key_serialize P ++ rest) = Returns true (Some P).
  Proof. intros I B. apply deserialize_iff. apply C30_public_key_roundtrip; [exact sqrt2_ok|exact B|]. intros Q ->. apply wire_eq2, I. Qed.
  Lemma round_trip_c sk pk sig m x c f rest rest' : is_bytes sk = true -> is_bytes rest = true -> is_bytes rest' = true ->
    c_public_key GT e L sk = Some pk -> c_sign GT e L compat ped sqrt sk m x c f = Some sig ->
    c_verify GT e L compat ped sqrt sqrt2 (pk ++ rest) (sig ++ rest') m x c f = Some true.
  Proof.
    intros B R R' HP HS. apply public_key_iff_c in HP as (_ & Hk & ->); [|exact B]. apply sign_iff_c in HS as (H & _ & _ & HH & ->); [|exact B].
    pose proof (number_nonneg 32 sk B) as NN. pose proof (proj1 (hashed_in _ _ _ _ _ _ HH)) as IH. set (k := number (firstn 32 sk)) in *.
    assert (I1 : in_g2 (g2_times k g2_generator)) by (exists k; split; [split; assumption|reflexivity]).
    assert (I2 : in_g1 (g1_times k H)) by (destruct (in_g1_times k H NN IH) as (s & <-); apply to1_in).
    unfold c_verify. apply then_some. exists (g2_times k g2_generator). split; [exact (read_key_ser _ _ I1 R)|]. apply then_some. exists (g1_times k H). split; [exact (read_signature_ser _ _ I2 R')|].
    apply then_some. exists true. split; [|reflexivity]. apply verify_true; [exact I1|exact I2|]. exists k, H. split; [split; assumption|]. split; [exact HH|]. split; reflexivity.
  Qed.
  Lemma round_trip_pop_c sk pk sig m rest rest' : is_bytes sk = true -> is_bytes rest = true -> is_bytes rest' = true ->
    c_public_key GT e L sk = Some pk -> c_sign_pop GT e L compat sqrt sk m = Some sig -> c_verify_pop GT e L compat sqrt sqrt2 (pk ++ rest) (sig ++ rest') m = Some true.
  Proof.
    intros B R R' HP HS. apply public_key_iff_c in HP as (_ & Hk & ->); [|exact B]. apply sign_pop_iff_c in HS as (H & _ & _ & HH & ->); [|exact B].
    pose proof (number_nonneg 32 sk B) as NN. pose proof (proj1 (hashed_in _ _ _ _ _ _ HH)) as IH. set (k := number (firstn 32 sk)) in *.
    assert (I1 : in_g2 (g2_times k g2_generator)) by (exists k; split; [split; assumption|reflexivity]).
    assert (I2 : in_g1 (g1_times k H)) by (destruct (in_g1_times k H NN IH) as (s & <-); apply to1_in).
    unfold c_verify_pop. apply then_some. exists (g2_times k g2_generator). split; [exact (read_key_ser _ _ I1 R)|]. apply then_some. exists (g1_times k H). split; [exact (read_signature_ser _ _ I2 R')|].
    apply then_some. exists true. split; [|reflexivity]. apply verify_pop_true; [exact I1|exact I2|]. exists k, H. split; [split; assumption|]. split; [exact HH|]. split; reflexivity.
  Qed.
  (** ** Uniqueness *)
  Lemma verify_parts pk sig m x c f : is_bytes pk = true -> is_bytes sig = true -> c_verify GT e L compat ped sqrt sqrt2 pk sig m x c f = Some true ->
    exists sk H, 0 <= sk < r /\ hashed c f SIG_DOMAIN m x H /\ public_key_deserialize sqrt2 g2_test pk = Ok (g2_times sk g2_generator) /\ signature_deserialize sqrt g1_test sig = Ok (g1_times sk H).
  Proof.
    intros B1 B2 E. unfold c_verify in E. apply then_some in E as (P & H1 & E). apply then_some in E as (S & H2 & E). apply then_some in E as (v & H & E). assert (v = true) as -> by congruence.
    pose proof (proj1 (read_key_iff _ _ B1) H1) as (_ & _ & I1). pose proof (proj1 (read_signature_iff _ _ B2) H2) as (_ & _ & I2).
    apply verify_true in H as (sk & H & B & HH & -> & ->); [|exact I1|exact I2]. exists sk, H. split; [exact B|]. split; [exact HH|]. split; apply deserialize_iff; assumption.
  Qed.
  Lemma times_zero sk H : 0 <= sk < r -> in_g1 H -> H <> None -> g1_times sk H = None -> sk = 0.
  Proof.
    intros B I N E. destruct (in_g1_of H I) as (Q & K & ->). rewrite g1_times_to in E by apply B. assert (Z : smul sk Q = gz) by (apply g1_to_eq; exact E).
    assert (NQ : Q <> gz) by (intros ->; apply N; reflexivity). apply (smul_eq_0_divide Q sk K NQ) in Z. destruct Z as [j Z]. destruct (Z.eq_dec j 0) as [->|J]; [rewrite Z; reflexivity|].
    exfalso. destruct B as [B0 B1]. rewrite Z in B0, B1. assert (0 < r) by reflexivity. nia.
  Qed.
  Lemma no_multiple a n : 0 < a -> a < n -> ~ (n | a).
  Proof. intros A B D. apply Z.divide_pos_le in D; lia. Qed.
  Lemma odd_1 Q : in_g1 (Some Q) -> snd Q <> qopp (snd Q).
  Proof.
    intros I E. destruct (in_g1_of _ I) as (R & K & T). assert (N : R = gn R).
    { apply g1_to_eq. rewrite g1_to_gn, <- T. destruct Q as [X Y]. cbn [snd] in E. unfold g1_neg, ec_neg. rewrite <- E. reflexivity. }
    assert (D : smul 2 R = gz) by (change 2 with (1 + 1); rewrite smul_add, smul_1; rewrite N at 2; apply gn_r).
    assert (Z : R <> gz) by (intros ->; discriminate T). apply (smul_eq_0_divide R 2 K Z) in D. apply (no_multiple 2 r); [lia|reflexivity|exact D].
  Qed.
  Lemma odd_2 Q : in_g2 (Some Q) -> snd Q <> q2opp (snd Q).
  Proof.
    intros I E. assert (O : on_twist (Some Q) = true) by (destruct (in_g2_of _ I) as (R & _ & T); rewrite T; apply g2_to_on).
    assert (None = Some Q); [|discriminate]. symmetry. apply neg_self; [exact O|]. destruct Q as [X Y]. cbn [snd] in E. unfold g2_neg, ec_neg. rewrite <- E. reflexivity.
  Qed.
  Lemma g2_times_0 sk : 0 <= sk < r -> (g2_times sk g2_generator = None <-> sk = 0).
  Proof. intros B. split; [|intros ->; reflexivity]. intros E. apply g2_unique; [exact B|split; [lia|reflexivity]|]. rewrite E. reflexivity. Qed.
  Lemma unique_c pk sig sig' m x c f : is_bytes pk = true -> is_bytes sig = true -> is_bytes sig' = true -> ~ wire_g2 (number (firstn 96 pk)) None ->
    c_verify GT e L compat ped sqrt sqrt2 pk sig m x c f = Some true -> c_verify GT e L compat ped sqrt sqrt2 pk sig' m x c f = Some true -> firstn 48 sig = firstn 48 sig'.
  Proof.
    intros B B1 B2 NI V V'. destruct (verify_parts _ _ _ _ _ _ B B1 V) as (sk & H & R & HH & HP & HS). destruct (verify_parts _ _ _ _ _ _ B B2 V') as (sk' & H' & R' & HH' & HP' & HS').
    assert (sk' = sk) as -> by (apply g2_unique; [exact R'|exact R|congruence]). assert (H' = H) as -> by exact (hashed_unique _ _ _ _ _ _ _ HH' HH).
    destruct (hashed_in _ _ _ _ _ _ HH) as (IH & NH). destruct (g1_times sk H) as [Q|] eqn:E.
    - assert (I : in_g1 (Some Q)) by (rewrite <- E; destruct (in_g1_times sk H (proj1 R) IH) as (s & <-); apply to1_in).
      rewrite (C30_signature_canonical sqrt g1_test sig Q sqrt_ok B1 HS (odd_1 Q I)). symmetry. exact (C30_signature_canonical sqrt g1_test sig' Q sqrt_ok B2 HS' (odd_1 Q I)).
    - exfalso. apply NI. pose proof (times_zero sk H R IH NH E) as Z. subst sk. apply key_in_g2 in HP as (_ & W & _); [|exact sqrt2_ok|exact B]. exact W.
  Qed.
  Lemma key_unique_c pk pk' sig m x c f : is_bytes pk = true -> is_bytes pk' = true -> is_bytes sig = true -> ~ wire_g1 (number (firstn 48 sig)) None ->
    c_verify GT e L compat ped sqrt sqrt2 pk sig m x c f = Some true -> c_verify GT e L compat ped sqrt sqrt2 pk' sig m x c f = Some true -> firstn 96 pk = firstn 96 pk'.
  Proof.
    intros B1 B2 B NI V V'. destruct (verify_parts _ _ _ _ _ _ B1 B V) as (sk & H & R & HH & HP & HS). destruct (verify_parts _ _ _ _ _ _ B2 B V') as (sk' & H' & R' & HH' & HP' & HS').
    assert (H' = H) as -> by exact (hashed_unique _ _ _ _ _ _ _ HH' HH). destruct (hashed_in _ _ _ _ _ _ HH) as (IH & NH).
    assert (E : g1_times sk' H = g1_times sk H) by congruence.
    assert (sk' = sk) as ->.
    { destruct (in_g1_of H IH) as (Q & K & ->). rewrite !g1_times_to in E by (apply R || apply R'). apply g1_to_eq in E. assert (NQ : Q <> gz) by (intros ->; apply NH; reflexivity).
      apply (smul_inj_scalar Q sk' sk K NQ) in E. rewrite !Z.mod_small in E by assumption. exact E. }
    destruct (g2_times sk g2_generator) as [Q|] eqn:E2.
    - assert (I : in_g2 (Some Q)) by (rewrite <- E2; exists sk; split; [exact R|reflexivity]).
      rewrite (C30_public_key_canonical sqrt2 g2_test pk Q sqrt2_ok B1 HP (odd_2 Q I)). symmetry. exact (C30_public_key_canonical sqrt2 g2_test pk' Q sqrt2_ok B2 HP' (odd_2 Q I)).
    - exfalso. apply NI. apply g2_times_0 in E2; [|exact R]. subst sk. apply signature_in_g1 in HS as (_ & W & _); [|exact sqrt_ok|exact B]. exact W.
  Qed.
  (** ** The answer *)
  Lemma verify_answer P S m x c f H : hashed c f SIG_DOMAIN m x H -> in_g2 P -> in_g1 S ->
    exists b, ffi_verify_signature direct composite cip22 (of2 P) m x (of1 S) c f = Returns true (Some b) /\
      (b = true <-> exists sk, 0 <= sk < r /\ P = g2_times sk g2_generator /\ S = g1_times sk H).
  Proof.
    intros HH I1 I2.
    assert (T : exists b, ffi_verify_signature direct composite cip22 (of2 P) m x (of1 S) c f = Returns true (Some b)).
    { destruct (hashed_sel _ _ _ _ _ _ HH) as (h & Sl). destruct (hashed_in _ _ _ _ _ _ HH) as (IH & _).
      assert (E : h SIG_DOMAIN m x = Ok (of1 H)) by (apply (hash_value _ _ _ _ _ _ _ Sl); rewrite (to1_of1 H IH); exact HH).
      assert (T : exists b, to_is_ok (outcome (verify h (of2 P) m x (of1 S))) = Ok b).
      { unfold verify, verify_sig, do_hash, bind, outcome. rewrite E. cbn [snd ret]. match goal with |- context [if ?b then _ else _] => destruct b end; eexists; reflexivity. }
      destruct T as (b & T). exists b. destruct Sl; unfold ffi_verify_signature; rewrite T; reflexivity. }
    destruct T as (b & T). exists b. split; [exact T|].
    split.
    - intros ->. apply verify_true in T as (sk & H' & B & HH' & D & E); [|exact I1|exact I2]. exists sk. split; [exact B|]. split; [exact D|]. rewrite <- (hashed_unique _ _ _ _ _ _ _ HH' HH). exact E.
    - intros (sk & B & D & E). assert (V : ffi_verify_signature direct composite cip22 (of2 P) m x (of1 S) c f = Returns true (Some true)).
      { apply verify_true; [exact I1|exact I2|]. exists sk, H. split; [exact B|]. split; [exact HH|]. split; assumption. }
      congruence.
  Qed.
  Lemma verify_decides pk sig m x c f P S H : is_bytes pk = true -> is_bytes sig = true -> hashed c f SIG_DOMAIN m x H ->
    (96 <= length pk)%nat -> wire_g2 (number (firstn 96 pk)) P -> in_g2 P -> (48 <= length sig)%nat -> wire_g1 (number (firstn 48 sig)) S -> in_g1 S ->
    exists b, c_verify GT e L compat ped sqrt sqrt2 pk sig m x c f = Some b /\
      (b = true <-> exists sk, 0 <= sk < r /\ P = g2_times sk g2_generator /\ S = g1_times sk H).
  Proof.
    intros B1 B2 HH L1 W1 I1 L2 W2 I2. pose proof (proj2 (read_key_iff _ _ B1) (conj L1 (conj W1 I1))) as R1. pose proof (proj2 (read_signature_iff _ _ B2) (conj L2 (conj W2 I2))) as R2.
    destruct (verify_answer P S m x c f H HH I1 I2) as (b & E & T). exists b. unfold c_verify. rewrite R1. cbn [then_call]. rewrite R2. cbn [then_call]. rewrite E. split; [reflexivity|exact T].
  Qed.
  (** ** Aggregates *)
  Lemma read_all_ok {A} (read : bytes -> reply A) ls Ps : read_all read ls = Some Ps <-> Forall2 (fun l P => read l = Returns true (Some P)) ls Ps.
  Proof.
    revert Ps. induction ls as [|l ls IH]; intros Ps; cbn [read_all].
    - split; [intros H; assert (Ps = []) as -> by congruence; constructor|intros H; inversion H; reflexivity].
    - rewrite then_some. split.
      + intros (P & H & E). destruct (read_all read ls) as [Qs|]; [|discriminate E]. cbn [option_map] in E. assert (Ps = P :: Qs) as -> by congruence. constructor; [exact H|]. apply IH. reflexivity.
      + intros H. inversion H as [|? P ? Qs H1 H2]; subst. exists P. split; [exact H1|]. apply IH in H2. rewrite H2. reflexivity.
  Qed.
  Lemma jac2_inj P Q : jac2 P = jac2 Q -> P = Q.
  Proof.
    assert (N : q2_1 <> q2_0) by (intros E; apply (f_equal fst) in E; discriminate E).
    destruct P as [[X Y]|], Q as [[X' Y']|]; unfold jac2; intros E; [|exfalso; apply N; exact (f_equal jz E)|exfalso; apply N; symmetry; exact (f_equal jz E)|reflexivity].
    pose proof (f_equal jx E : X = X') as ->. pose proof (f_equal jy E : Y = Y') as ->. reflexivity.
  Qed.
  Lemma q2_1_l a : q2mul q2_1 a = a. Proof. ring. Qed.
  Lemma q2_1_r a : q2mul a q2_1 = a. Proof. ring. Qed.
  Lemma q2_div_1 a : q2div a q2_1 = a. 
  Proof.
    assert (N : q2_1 <> q2_0) by (intros E; apply (f_equal fst) in E; discriminate E). pose proof (Finv_l fq2_field q2_1 N) as I.
    rewrite (q2_1_r (q2inv q2_1)) in I. unfold q2div. rewrite I. apply q2_1_r.
  Qed.
  Lemma jac2_pt P : jac2_point (jac2 P) = P.
  Proof.
    destruct P as [[X Y]|]; unfold jac2_point, jac2; cbn [jx jy jz].
    - destruct (q2eqb q2_1 q2_0) eqn:E; [exfalso; apply q2eqb_spec in E; apply (f_equal fst) in E; discriminate E|].
      rewrite !q2_1_l, !q2_div_1. reflexivity.
    - rewrite (proj2 (q2eqb_spec q2_0 q2_0) eq_refl). reflexivity.
  Qed.
  Lemma sum_keys fh Ps : @sum_of (real_cache sqrt2 fh) (map jac2 Ps) = total (map of2 Ps).
  Proof. induction Ps as [|P Ps IH]; [reflexivity|]. cbn [map]. unfold sum_of in *. cbn [fold_right total]. rewrite IH. cbn [pt real_cache]. rewrite jac2_pt. reflexivity. Qed.
  Lemma aggregate_keys_c fh h o1 o2 pks Ps out : Forall fair_op h -> fair o1 -> fair o2 -> NoDup Ps -> Forall2 (fun l P => read_key sqrt2 l = Returns true (Some P)) pks Ps ->
    (c_aggregate_keys sqrt2 fh h o1 o2 pks = Some out <-> out = public_key_serialize (to2 (total (map of2 Ps)))).
  Proof.
    intros Hh H1 H2 ND R. unfold c_aggregate_keys. rewrite (proj2 (read_all_ok _ _ _) R), then_some.
    assert (SS : set_sum (E := real_cache sqrt2 fh) (map jac2 Ps) (total (map of2 Ps))).
    { rewrite <- (sum_keys fh). apply set_sum_nodup. apply FinFun.Injective_map_NoDup; [exact jac2_inj|exact ND]. }
    split.
    - intros (P & H & E). apply aggregate_spec in H; [|assumption|assumption|assumption]. rewrite (set_sum_unique _ _ _ H SS) in E. apply serialized, E.
    - intros ->. eexists. split; [apply aggregate_spec; [assumption|assumption|assumption|exact SS]|]. apply serialized. reflexivity.
  Qed.
  Lemma aggregate_sigs_c sigs Ss out : Forall2 (fun l S => read_signature sqrt l = Returns true (Some S)) sigs Ss ->
    (c_aggregate GT e L sqrt sigs = Some out <-> out = signature_serialize (to1 (total (map of1 Ss)))).
  Proof.
    intros R. unfold c_aggregate. rewrite (proj2 (read_all_ok _ _ _) R), then_some. split.
    - intros (s & H & E). apply aggregate_iff in H as ->. apply serialized, E.
    - intros ->. eexists. split; [apply aggregate_iff; reflexivity|]. apply serialized. reflexivity.
  Qed.
  Lemma sound_pair P S sk H (h : BlsModel.hasher pr) : 0 <= sk < r -> in_g1 H -> P = g2_times sk g2_generator -> S = g1_times sk H -> signature_on (pr := pr) (of1 H) (of2 P) (of1 S).
  Proof.
    intros B I -> ->. exists sk. split.
    - apply to2_inj. rewrite to2_of2 by (exists sk; split; [exact B|reflexivity]). cbn [gen2 real_pairing]. rewrite to2_smul by apply B. rewrite to2_gen. reflexivity.
    - apply to1_inj. destruct (in_g1_times sk H (proj1 B) I) as (s & E). rewrite to1_of1 by (rewrite <- E; apply to1_in). rewrite to1_smul by apply B. rewrite (to1_of1 H I). reflexivity.
  Qed.
  Lemma verified_list pks sigs m x c f H : hashed c f SIG_DOMAIN m x H -> forallb is_bytes pks = true -> forallb is_bytes sigs = true ->
    Forall2 (fun pk sig => c_verify GT e L compat ped sqrt sqrt2 pk sig m x c f = Some true) pks sigs ->
    exists Ps Ss, Forall2 (fun l P => read_key sqrt2 l = Returns true (Some P)) pks Ps /\ Forall2 (fun l S => read_signature sqrt l = Returns true (Some S)) sigs Ss /\
      signatures_on (pr := pr) (repeat (of1 H) (length Ps)) (map of2 Ps) (map of1 Ss).
  Proof.
    intros HH B1 B2 V. destruct (hashed_in _ _ _ _ _ _ HH) as (IH & _). induction V as [|pk sig pks sigs V VS R].
    - exists [], []. repeat split; constructor.
    - cbn [forallb] in B1, B2. apply andb_true_iff in B1 as [B1 B1'], B2 as [B2 B2']. destruct (R B1' B2') as (Ps & Ss & R1 & R2 & R3).
      destruct (verify_parts _ _ _ _ _ _ B1 B2 V) as (sk & H' & Rg & HH' & HP & HS). rewrite (hashed_unique _ _ _ _ _ _ _ HH' HH) in HS.
      exists (g2_times sk g2_generator :: Ps), (g1_times sk H :: Ss). split; [constructor; [apply deserialize_iff, HP|exact R1]|]. split; [constructor; [apply deserialize_iff, HS|exact R2]|].
      cbn [length repeat map]. constructor; [|exact R3]. apply (sound_pair _ _ sk H direct Rg IH); reflexivity.
  Qed.
  Lemma distinct_keys pks Ps : forallb is_bytes pks = true -> Forall2 (fun l P => read_key sqrt2 l = Returns true (Some P)) pks Ps ->
    Forall (fun pk => ~ wire_g2 (number (firstn 96 pk)) None) pks -> NoDup (map (firstn 96) pks) -> NoDup Ps.
  Proof.
    intros B R. induction R as [|l P ls Ps E R IH]; intros NI ND; [constructor|]. cbn [forallb] in B. apply andb_true_iff in B as [B B']. rewrite map_cons in ND.
    apply NoDup_cons_iff in ND as [N1 N2]. pose proof (Forall_inv NI) as I1. pose proof (Forall_inv_tail NI) as I2. constructor; [|exact (IH B' I2 N2)].
    intros K. apply N1. clear IH N1 N2 NI I2. pose proof (proj1 (read_key_iff _ _ B) E) as (_ & W & I). destruct P as [Q|]; [|contradiction].
    apply deserialize_iff in E. rewrite (C30_public_key_canonical sqrt2 g2_test l Q sqrt2_ok B E (odd_2 Q I)).
    induction R as [|l' P' ls Ps E' R IH]; [destruct K|]. cbn [forallb] in B'. apply andb_true_iff in B' as [B1 B2]. rewrite map_cons. destruct K as [->|K]; [left|right; exact (IH B2 K)].
    apply deserialize_iff in E'. exact (C30_public_key_canonical sqrt2 g2_test l' Q sqrt2_ok B1 E' (odd_2 Q I)).
  Qed.
  Lemma accept_points c f m x H (P : sub g2_curve) (S : sub g1_curve) : hashed c f SIG_DOMAIN m x H -> signature_on (pr := pr) (of1 H) P S ->
    c_verify GT e L compat ped sqrt sqrt2 (public_key_serialize (to2 P)) (signature_serialize (to1 S)) m x c f = Some true.
  Proof.
    intros HH V. destruct (hashed_sel _ _ _ _ _ _ HH) as (h & Sl). destruct (hashed_in _ _ _ _ _ _ HH) as (IH & _).
    assert (E : h SIG_DOMAIN m x = Ok (of1 H)) by (apply (hash_value _ _ _ _ _ _ _ Sl); rewrite (to1_of1 H IH); exact HH).
    assert (VI : valid_in (pr := pr) h SIG_DOMAIN m x P S) by (exists (of1 H); split; assumption).
    apply (valid_points _ _ _ _ _ _ _ _ Sl) in VI. unfold c_verify. apply then_some. exists (to2 P).
    split; [rewrite <- (app_nil_r (public_key_serialize _)); apply read_key_ser; [apply to2_in|reflexivity]|]. apply then_some. exists (to1 S).
    split; [rewrite <- (app_nil_r (signature_serialize _)); apply read_signature_ser; [apply to1_in|reflexivity]|]. apply then_some. exists true. split; [|reflexivity].
    apply verify_true; [apply to2_in|apply to1_in|exact VI].
  Qed.
  Lemma aggregate_c fh h o1 o2 pks sigs m x c f : Forall fair_op h -> fair o1 -> fair o2 -> pks <> [] -> forallb is_bytes pks = true -> forallb is_bytes sigs = true ->
    Forall (fun pk => ~ wire_g2 (number (firstn 96 pk)) None) pks -> NoDup (map (firstn 96) pks) ->
    Forall2 (fun pk sig => c_verify GT e L compat ped sqrt sqrt2 pk sig m x c f = Some true) pks sigs ->
    exists pk sig, c_aggregate_keys sqrt2 fh h o1 o2 pks = Some pk /\ c_aggregate GT e L sqrt sigs = Some sig /\ c_verify GT e L compat ped sqrt sqrt2 pk sig m x c f = Some true.
  Proof.
    intros Hh H1 H2 NE B1 B2 NI ND V. assert (exists H, hashed c f SIG_DOMAIN m x H) as (H & HH).
    { destruct V as [|pk sig pks sigs V _]; [contradiction|]. cbn [forallb] in B1, B2. apply andb_true_iff in B1 as [B1 _], B2 as [B2 _].
      destruct (verify_parts _ _ _ _ _ _ B1 B2 V) as (sk & H & _ & HH & _). exists H. exact HH. }
    destruct (verified_list _ _ _ _ _ _ _ HH B1 B2 V) as (Ps & Ss & R1 & R2 & R3). pose proof (distinct_keys _ _ B1 R1 NI ND) as NP.
    eexists. eexists. split; [apply (aggregate_keys_c fh h o1 o2 pks Ps _ Hh H1 H2 NP R1); reflexivity|]. split; [apply (aggregate_sigs_c sigs Ss _ R2); reflexivity|].
    apply (accept_points _ _ _ _ H _ _ HH). apply (signature_on_total (pr := pr) (of1 H) (map of2 Ps) (map of1 Ss)). assert (EL : length Ps = length (map of2 Ps)) by (symmetry; apply map_length). rewrite EL in R3. exact R3.
  Qed.
  (** A key given twice counts once (cache.rs), its signature twice. *)
  Lemma twice_c fh h o1 o2 pk sig m x c f : Forall fair_op h -> fair o1 -> fair o2 -> is_bytes pk = true -> is_bytes sig = true -> ~ wire_g2 (number (firstn 96 pk)) None ->
    c_verify GT e L compat ped sqrt sqrt2 pk sig m x c f = Some true ->
    exists apk asig, c_aggregate_keys sqrt2 fh h o1 o2 [pk; pk] = Some apk /\ c_aggregate GT e L sqrt [sig; sig] = Some asig /\ c_verify GT e L compat ped sqrt sqrt2 apk asig m x c f = Some false.
  Proof.
    intros Hh H1 H2 B1 B2 NI V. destruct (verify_parts _ _ _ _ _ _ B1 B2 V) as (sk & H & Rg & HH & HP & HS). destruct (hashed_in _ _ _ _ _ _ HH) as (IH & NH).
    set (P := g2_times sk g2_generator) in *. set (S := g1_times sk H) in *. apply deserialize_iff in HP, HS.
    assert (I1 : in_g2 P) by (exists sk; split; [exact Rg|reflexivity]). assert (I2 : in_g1 S) by (destruct (in_g1_times sk H (proj1 Rg) IH) as (s & E); unfold S; rewrite <- E; apply to1_in).
    assert (R2 : Forall2 (fun l S => read_signature sqrt l = Returns true (Some S)) [sig; sig] [S; S]) by (repeat constructor; exact HS).
    exists (public_key_serialize P), (signature_serialize (to1 (total (map of1 [S; S])))). split.
    { unfold c_aggregate_keys. rewrite (proj2 (read_all_ok (read_key sqrt2) [pk; pk] [P; P])) by (repeat constructor; exact HP). apply then_some. exists (of2 P). split; [|rewrite (to2_of2 P I1); apply serialized; reflexivity].
      apply aggregate_spec; [assumption|assumption|assumption|]. exists [jac2 P]. split; [repeat constructor; intros []|]. split; [intros k; cbn [map In]; tauto|].
      cbn [sum_of fold_right pt real_cache]. unfold sum_of. cbn [fold_right pt real_cache]. rewrite jac2_pt. symmetry. apply ga_0_r. }
    split; [apply (aggregate_sigs_c _ _ _ R2); reflexivity|].
    set (S2 := to1 (total (map of1 [S; S]))). assert (I3 : in_g1 S2) by apply to1_in.
    assert (RK : read_key sqrt2 (public_key_serialize P) = Returns true (Some P)) by (rewrite <- (app_nil_r (public_key_serialize _)); apply read_key_ser; [exact I1|reflexivity]).
    assert (RS : read_signature sqrt (signature_serialize S2) = Returns true (Some S2)) by (rewrite <- (app_nil_r (signature_serialize _)); apply read_signature_ser; [exact I3|reflexivity]).
    destruct (verify_answer P S2 m x c f H HH I1 I3) as (b & E & T). unfold c_verify. rewrite RK. cbn [then_call]. rewrite RS. cbn [then_call]. rewrite E. cbn [then_call]. destruct b; [|reflexivity].
    exfalso. destruct (proj1 T eq_refl) as (k & Rk & EP & ES). assert (k = sk) as -> by (apply g2_unique; [exact Rk|exact Rg|symmetry; exact EP]). fold S in ES.
    assert (Z : of1 S = gz).
    { assert (T2 : total (map of1 [S; S]) = ga (of1 S) (of1 S)) by (cbn [map total]; exact (f_equal (ga (of1 S)) (ga_0_r (of1 S)))).
      assert (D : ga (of1 S) (of1 S) = of1 S) by (rewrite <- T2; apply to1_inj; rewrite (to1_of1 S I2); exact ES).
      apply (f_equal (fun z => ga (gn (of1 S)) z)) in D. rewrite ga_assoc, gn_l, ga_0_l in D. exact D. }
    assert (ZS : S = None) by (rewrite <- (to1_of1 S I2), Z; reflexivity). apply NI. pose proof (times_zero sk H Rg IH NH ZS) as ->. apply read_key_iff in HP as (_ & W & _); [|exact B1]. exact W.
  Qed.
End Real.
