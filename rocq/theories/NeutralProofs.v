(** Proofs for C88: the point at infinity as a public key. *)
From Verif Require Import Base Constants Group Field Curve BlsModel PointModel CacheModel CacheSpec EncodingModel HashCurveSpec HashCurveProofs CodecModel CodecSpec FfiModel
  CurveGroups CurveOrder OrderSpec OrderProofs TwistSpec TwistProofs RealSpec RealModel RealProofs PropReal RealBatchSpec RealSessionModel RealSessionSpec RealSessionProofs.

Lemma key_one l P P' : is_bytes l = true -> key_bytes l P -> key_bytes l P' -> P = P'.
Proof. exact (key_bytes_unique fq2_sqrt fq2_sqrt_ok l P P'). Qed.
(** ** Sums *)
Lemma none_in {A} (l : list (option A)) : In None l \/ ~ In None l.
Proof. induction l as [|[a|] l [IH|IH]]; [right; intros []|left; right; exact IH|right; intros [K|K]; [discriminate K|exact (IH K)]|left; left; reflexivity|left; left; reflexivity]. Qed.
Lemma sum_skip D1 D2 : fold_right g2_add None (D1 ++ None :: D2) = fold_right g2_add None (D1 ++ D2).
Proof. rewrite !fold_right_app. reflexivity. Qed.
Lemma neutral_sum k0 ks P : key_bytes (g_bytes k0) None -> is_bytes (g_bytes k0) = true -> (sum_of_distinct (k0 :: ks) P <-> sum_of_distinct ks P).
Proof.
  intros K0 B0. split.
  - intros (Ps & D & F & N & I & ->). cbn [map] in F. inversion F as [|? P0 ? Ps' K F']; subst.
    assert (P0 = None) as -> by exact (key_one _ _ _ B0 K K0). exists Ps'. destruct (none_in Ps') as [J|J].
    + exists D. split; [exact F'|]. split; [exact N|]. split; [|reflexivity]. intros Q. rewrite I. cbn [In]. split; [intros [<-|X]; [exact J|exact X]|right; assumption].
    + assert (M : In None D) by (apply I; left; reflexivity). apply in_split in M as (D1 & D2 & ->). exists (D1 ++ D2). split; [exact F'|].
      split; [exact (NoDup_remove_1 _ _ _ N)|]. split; [|apply sum_skip]. intros Q. pose proof (NoDup_remove_2 _ _ _ N) as R. specialize (I Q). rewrite in_app_iff in *. cbn [In] in I. split.
      * intros X. assert (Y : None = Q \/ In Q Ps') by (apply I; tauto). destruct Y as [<-|Y]; [|exact Y]. exfalso. apply R. exact X.
      * intros X. assert (Y : In Q D1 \/ None = Q \/ In Q D2) by (apply I; right; exact X). destruct Y as [Y|[<-|Y]]; [left; exact Y|contradiction|right; exact Y].
  - intros (Ps & D & F & N & I & ->). exists (None :: Ps). destruct (none_in Ps) as [J|J].
    + exists D. split; [cbn [map]; constructor; assumption|]. split; [exact N|]. split; [|reflexivity]. intros Q. rewrite I. cbn [In]. split; [right; assumption|intros [<-|X]; [exact J|exact X]].
    + exists (None :: D). split; [cbn [map]; constructor; assumption|]. split; [constructor; [rewrite I; exact J|exact N]|]. split; [|reflexivity]. intros Q. cbn [In]. rewrite I. reflexivity.
Qed.
Section Session.
  Context (sqrt2 : fq2 -> option fq2) (fh : fq2 -> Z) (S : sqrt_spec q2mul sqrt2).
  Lemma owed_same qs qs' (q q' : request sqrt2 fh) : Forall proper qs -> Forall proper qs' -> proper q -> proper q' -> (forall out, owed q out <-> owed q' out) ->
    snd (serve (after qs) q) = snd (serve (after qs') q').
  Proof.
    intros F F' PQ PQ' EO. pose proof (fun out => serve_owed sqrt2 fh S qs q out F PQ) as H. pose proof (fun out => serve_owed sqrt2 fh S qs' q' out F' PQ') as H'.
    destruct (snd (serve (after qs) q)) as [out|].
    - symmetry. apply H', EO, H. reflexivity.
    - destruct (snd (serve (after qs') q')) as [out|]; [|reflexivity]. apply H, EO, H'. reflexivity.
  Qed.
  Lemma neutral_front qs qs' o1 o2 o1' o2' k0 ks : Forall proper qs -> Forall proper qs' ->
    proper (Aggregate (sqrt2 := sqrt2) (fh := fh) o1 o2 (k0 :: ks)) -> proper (Aggregate (sqrt2 := sqrt2) (fh := fh) o1' o2' ks) -> key_bytes (g_bytes k0) None ->
    snd (serve (after qs) (Aggregate o1 o2 (k0 :: ks))) = snd (serve (after qs') (Aggregate o1' o2' ks)).
  Proof.
    intros F F' PQ PQ' K. apply owed_same; [exact F|exact F'|exact PQ|exact PQ'|]. destruct PQ as (_ & _ & B). inversion B; subst.
    intros out. cbn [owed]. split; intros (P & SP & E); exists P; (split; [|exact E]); apply (neutral_sum k0 ks P K); assumption.
  Qed.
  Lemma neutral_front_subtract qs qs' o1 o2 o1' o2' a k0 ks : Forall proper qs -> Forall proper qs' ->
    proper (Subtract (sqrt2 := sqrt2) (fh := fh) o1 o2 a (k0 :: ks)) -> proper (Subtract (sqrt2 := sqrt2) (fh := fh) o1' o2' a ks) -> key_bytes (g_bytes k0) None ->
    snd (serve (after qs) (Subtract o1 o2 a (k0 :: ks))) = snd (serve (after qs') (Subtract o1' o2' a ks)).
  Proof.
    intros F F' PQ PQ' K. apply owed_same; [exact F|exact F'|exact PQ|exact PQ'|]. destruct PQ as (_ & _ & _ & B). inversion B; subst.
    intros out. cbn [owed]. split; intros (A & P & Q & KA & SP & E); exists A, P, Q; (split; [exact KA|]); (split; [|exact E]); apply (neutral_sum k0 ks P K); assumption.
  Qed.
  Lemma moved k0 ks1 ks2 : same_keys (ks1 ++ k0 :: ks2) (k0 :: ks1 ++ ks2).
  Proof. intros b. rewrite map_app. cbn [map]. rewrite map_app. cbn [In]. rewrite !in_app_iff. cbn [In]. tauto. Qed.
  Lemma bytes_moved (k0 : given) ks1 ks2 : Forall (fun k => is_bytes (g_bytes k) = true) (ks1 ++ k0 :: ks2) ->
    Forall (fun k => is_bytes (g_bytes k) = true) (k0 :: ks1 ++ ks2) /\ Forall (fun k => is_bytes (g_bytes k) = true) (ks1 ++ ks2).
  Proof. intros B. apply Forall_app in B as (B1 & B2). inversion B2; subst. assert (Forall (fun k => is_bytes (g_bytes k) = true) (ks1 ++ ks2)) by (apply Forall_app; split; assumption). split; [constructor|]; assumption. Qed.
  Lemma neutral_aggregate qs o1 o2 k0 ks1 ks2 : Forall proper qs -> proper (Aggregate (sqrt2 := sqrt2) (fh := fh) o1 o2 (ks1 ++ k0 :: ks2)) -> key_bytes (g_bytes k0) None ->
    snd (serve (after qs) (Aggregate o1 o2 (ks1 ++ k0 :: ks2))) = snd (serve (after qs) (Aggregate o1 o2 (ks1 ++ ks2))).
  Proof.
    intros F PQ K. destruct PQ as (O1 & O2 & B). destruct (bytes_moved _ _ _ B) as (B1 & B2).
    rewrite (same_answer sqrt2 fh S qs qs o1 o2 o1 o2 (ks1 ++ k0 :: ks2) (k0 :: ks1 ++ ks2) F F (conj O1 (conj O2 B)) (conj O1 (conj O2 B1)) (moved k0 ks1 ks2)).
    exact (neutral_front qs qs o1 o2 o1 o2 k0 (ks1 ++ ks2) F F (conj O1 (conj O2 B1)) (conj O1 (conj O2 B2)) K).
  Qed.
  Lemma neutral_subtract qs o1 o2 a k0 ks1 ks2 : Forall proper qs -> proper (Subtract (sqrt2 := sqrt2) (fh := fh) o1 o2 a (ks1 ++ k0 :: ks2)) -> key_bytes (g_bytes k0) None ->
    snd (serve (after qs) (Subtract o1 o2 a (ks1 ++ k0 :: ks2))) = snd (serve (after qs) (Subtract o1 o2 a (ks1 ++ ks2))).
  Proof.
    intros F PQ K. destruct PQ as (O1 & O2 & BA & B). destruct (bytes_moved _ _ _ B) as (B1 & B2).
    rewrite (same_difference sqrt2 fh S qs qs o1 o2 o1 o2 a a (ks1 ++ k0 :: ks2) (k0 :: ks1 ++ ks2) F F (conj O1 (conj O2 (conj BA B))) (conj O1 (conj O2 (conj BA B1))) eq_refl (moved k0 ks1 ks2)).
    exact (neutral_front_subtract qs qs o1 o2 o1 o2 a k0 (ks1 ++ ks2) F F (conj O1 (conj O2 (conj BA B1))) (conj O1 (conj O2 (conj BA B2))) K).
  Qed.
End Session.

(** ** Verification *)
Section Verify.
  Context (GT : grp) (e : g1_point -> g2_point -> GT) (L : bilinear e) (compat : bool) (ped : bytes -> result bytes) (sqrt : fq -> option fq) (sqrt2 : fq2 -> option fq2).
  Context (PB : forall m out, ped m = Ok out -> is_bytes out = true) (Hs : sqrt_spec qmul sqrt) (Hs2 : sqrt_spec q2mul sqrt2).
  Context (pk : bytes) (Hb : is_bytes pk = true) (Hk : key_bytes pk None).
  Lemma key_zero sk : 0 <= sk < r -> (96 <= length pk)%nat -> wire_g2 (number (firstn 96 pk)) (g2_times sk g2_generator) -> sk = 0.
  Proof.
    intros B L1 W. assert (E : g2_times sk g2_generator = None).
    { apply (key_one pk _ _ Hb); [|exact Hk]. split; [exact L1|]. split; [exact W|]. exists sk. split; [exact B|reflexivity]. }
    apply (g2_times_0 sk B). exact E.
  Qed.
  Lemma zero_case sig H : (96 <= length pk)%nat /\ wire_g2 (number (firstn 96 pk)) (g2_times 0 g2_generator) /\ (48 <= length sig)%nat /\ wire_g1 (number (firstn 48 sig)) (g1_times 0 H) <->
    (48 <= length sig)%nat /\ wire_g1 (number (firstn 48 sig)) None.
  Proof. destruct Hk as (L1 & W & _). change (g2_times 0 g2_generator) with (@None (fq2 * fq2)). change (g1_times 0 H) with (@None (fq * fq)). tauto. Qed.
  Lemma zero_in : 0 <= 0 < r. Proof. split; [lia|reflexivity]. Qed.
  Lemma neutral_pop sig m H : is_bytes sig = true -> hashed compat ped sqrt false false POP_DOMAIN m [] H ->
    c_verify_pop GT e L compat sqrt sqrt2 pk sig m = Some true <-> (48 <= length sig)%nat /\ wire_g1 (number (firstn 48 sig)) None.
  Proof.
    intros B HH. rewrite (C70_verify_pop GT e L compat ped sqrt sqrt2 PB Hs Hs2 pk sig m Hb B). split.
    - intros (sk & H' & R & _ & L1 & W & L2 & WS). pose proof (key_zero sk R L1 W) as ->. split; [exact L2|exact WS].
    - intros K. exists 0, H. split; [exact zero_in|]. split; [exact HH|]. apply (zero_case sig H). exact K.
  Qed.
  Lemma neutral_verify sig m x c f H : is_bytes sig = true -> hashed compat ped sqrt c f SIG_DOMAIN m x H ->
    c_verify GT e L compat ped sqrt sqrt2 pk sig m x c f = Some true <-> (48 <= length sig)%nat /\ wire_g1 (number (firstn 48 sig)) None.
  Proof.
    intros B HH. rewrite (C70_verify GT e L compat ped sqrt sqrt2 PB Hs Hs2 pk sig m x c f Hb B). split.
    - intros (sk & H' & R & _ & L1 & W & L2 & WS). pose proof (key_zero sk R L1 W) as ->. split; [exact L2|exact WS].
    - intros K. exists 0, H. split; [exact zero_in|]. split; [exact HH|]. apply (zero_case sig H). exact K.
  Qed.
End Verify.
