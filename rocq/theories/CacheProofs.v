From Coq Require Import Permutation.
From Verif Require Import Base Group CacheModel CacheSpec.

Lemma bytes_eqb_spec a b : bytes_eqb a b = true <-> a = b.
Proof.
  revert b. induction a as [|x a IH]; intros [|y b]; cbn [bytes_eqb]; try (split; congruence).
  rewrite andb_true_iff, Z.eqb_eq, IH. split; [intros [-> ->]; reflexivity|intros H; injection H; tauto].
Qed.
Lemma bytes_eqb_false a b : bytes_eqb a b = false <-> a <> b.
Proof. rewrite <- not_true_iff_false, bytes_eqb_spec. reflexivity. Qed.

Section Proofs.
Context {E : cenv}.
Notation rep := (jac (F E)).
Notation G := (PG E).
Implicit Types (k a b : rep) (s t D pks l : list rep) (c : cache E).

Lemma wrapped_eq_spec a b : wrapped_eq a b = true <-> a = b.
Proof.
  unfold wrapped_eq. rewrite !andb_true_iff, !feqb_spec. destruct a, b; cbn. split.
  - intros [[-> ->] ->]; reflexivity.
  - intros H; injection H; tauto.
Qed.
(** The hash-set contract: equal keys have equal hashes, so [hs_same] is equality. *)
Lemma hs_same_spec a b : hs_same a b = true <-> a = b.
Proof.
  unfold hs_same. rewrite andb_true_iff, wrapped_eq_spec, Z.eqb_eq. split; [tauto|].
  intros ->. split; reflexivity.
Qed.
Lemma rep_dec a b : {a = b} + {a <> b}.
Proof. destruct (hs_same a b) eqn:X; [left|right]; [apply hs_same_spec; assumption|].
  intros H. apply hs_same_spec in H. congruence. Qed.
Lemma hs_contains_spec s k : hs_contains s k = true <-> In k s.
Proof.
  unfold hs_contains. rewrite existsb_exists. split.
  - intros [x [Hx Hs]]. apply hs_same_spec in Hs. subst; assumption.
  - intros H. exists k. split; [assumption|apply hs_same_spec; reflexivity].
Qed.
Lemma hs_insert_spec s k : NoDup s -> NoDup (hs_insert s k) /\ forall x, In x (hs_insert s k) <-> x = k \/ In x s.
Proof.
  intros H. unfold hs_insert. destruct (hs_contains s k) eqn:X.
  - apply hs_contains_spec in X. split; [assumption|]. intros x. split; [tauto|]. intros [->|]; assumption.
  - split; [constructor; [|assumption]|].
    + intros Hi. apply hs_contains_spec in Hi. congruence.
    + intros x. cbn. split; intros [->|]; tauto.
Qed.
Lemma fold_insert pks s : NoDup s ->
  NoDup (fold_left hs_insert pks s) /\ forall x, In x (fold_left hs_insert pks s) <-> In x pks \/ In x s.
Proof.
  revert s. induction pks as [|k pks IH]; intros s H; cbn [fold_left].
  - split; [assumption|]. cbn; tauto.
  - destruct (hs_insert_spec s k H) as [H1 H2]. destruct (IH _ H1) as [H3 H4]. split; [assumption|].
    intros x. rewrite H4, H2. cbn. split; intros; intuition.
Qed.
Lemma new_keys_spec pks : NoDup (new_keys pks) /\ forall x, In x (new_keys pks) <-> In x pks.
Proof.
  destruct (fold_insert pks [] (NoDup_nil _)) as [H1 H2]. split; [assumption|].
  intros x. unfold new_keys. rewrite H2. cbn; tauto.
Qed.

(** ** sums *)
Lemma sum_of_gsum l : sum_of l = gsum (map pt l).
Proof. induction l as [|k l IH]; [reflexivity|]. cbn [sum_of fold_right map]. rewrite gsum_cons, <- IH. reflexivity. Qed.
Lemma sum_of_perm l l' : Permutation l l' -> sum_of l = sum_of l'.
Proof. intros H. rewrite !sum_of_gsum. apply gsum_perm, Permutation_map, H. Qed.
Lemma sum_of_app l l' : sum_of (l ++ l') = (sum_of l + sum_of l')%G.
Proof. rewrite !sum_of_gsum, map_app. apply gsum_app. Qed.
Lemma set_sum_unique pks P Q : set_sum pks P -> set_sum pks Q -> P = Q.
Proof.
  intros [D [HN [HI ->]]] [D' [HN' [HI' ->]]]. apply sum_of_perm. apply NoDup_Permutation; try assumption.
  intros x. rewrite HI, HI'. reflexivity.
Qed.
Lemma fold_sub l (P : G) : fold_left (fun acc k => (acc - pt k)%G) l P = (P - sum_of l)%G.
Proof.
  revert P. induction l as [|k l IH]; intros P; cbn [fold_left sum_of fold_right].
  - rewrite gn_0, ga_0_r. reflexivity.
  - rewrite IH, gn_add. fold (sum_of l). rewrite ga_assoc. reflexivity.
Qed.
Lemma fold_add l (P : G) : fold_left (fun acc k => (acc + pt k)%G) l P = (P + sum_of l)%G.
Proof.
  revert P. induction l as [|k l IH]; intros P; cbn [fold_left sum_of fold_right].
  - rewrite ga_0_r. reflexivity.
  - rewrite IH. fold (sum_of l). rewrite ga_assoc. reflexivity.
Qed.

Lemma filter_split (f : rep -> bool) l : Permutation l (filter f l ++ filter (fun x => negb (f x)) l).
Proof.
  induction l as [|x l IH]; [constructor|]. cbn [filter]. destruct (f x); cbn [negb app].
  - constructor; assumption.
  - apply Permutation_cons_app. assumption.
Qed.
Lemma inter_perm s t : NoDup s -> NoDup t ->
  Permutation (filter (hs_contains t) s) (filter (hs_contains s) t).
Proof.
  intros Hs Ht. apply NoDup_Permutation; try (apply NoDup_filter; assumption).
  intros x. rewrite !filter_In, !hs_contains_spec. tauto.
Qed.

Lemma new_combined_spec o1 o2 s t : fair o1 -> fair o2 -> NoDup s -> NoDup t ->
  new_combined o1 o2 s (sum_of s) t = sum_of t.
Proof.
  intros F1 F2 Hs Ht. unfold new_combined. rewrite fold_add, fold_sub.
  rewrite (sum_of_perm _ _ (F1 (hs_difference s t))), (sum_of_perm _ _ (F2 (hs_difference t s))).
  rewrite (sum_of_perm _ _ (filter_split (hs_contains t) s)) at 1.
  rewrite (sum_of_perm _ _ (filter_split (hs_contains s) t)).
  rewrite !sum_of_app. unfold hs_difference. rewrite <- (ga_assoc _ (sum_of (filter (hs_contains t) s))), gn_r, ga_0_r.
  rewrite (sum_of_perm _ _ (inter_perm s t Hs Ht)). reflexivity.
Qed.

(** ** invariant of the aggregation half *)
Definition agg_inv c : Prop := NoDup (keys c) /\ combined c = sum_of (keys c).

Lemma agg_inv_new : agg_inv cache_new. Proof. split; [constructor|reflexivity]. Qed.
Lemma aggregate_inv o1 o2 c pks : fair o1 -> fair o2 -> agg_inv c ->
  agg_inv (fst (cache_aggregate o1 o2 c pks)) /\ set_sum pks (snd (cache_aggregate o1 o2 c pks)).
Proof.
  intros F1 F2 [HN HC]. destruct (new_keys_spec pks) as [HN' HI].
  unfold cache_aggregate. cbn [fst snd keys combined]. rewrite HC.
  rewrite (new_combined_spec o1 o2 _ _ F1 F2 HN HN'). split.
  - split; [assumption|reflexivity].
  - exists (new_keys pks). auto.
Qed.
Lemma deserialize_keys c d : keys (fst (cache_deserialize c d)) = keys c /\
  combined (fst (cache_deserialize c d)) = combined c.
Proof.
  unfold cache_deserialize. destruct (lru_get (de c) d) as [[v|] de']; [split; reflexivity|].
  destruct (decode d); split; reflexivity.
Qed.
Lemma cstep_inv c o : fair_op o -> agg_inv c -> agg_inv (fst (cstep c o)).
Proof.
  destruct o as [d|o1 o2 pks|]; cbn [cstep fair_op]; intros Hf HI.
  - pose proof (deserialize_keys c d) as [K C]. destruct (cache_deserialize c d) as [c' x]. cbn [fst] in *.
    unfold agg_inv. rewrite K, C. exact HI.
  - destruct Hf as [F1 F2]. pose proof (aggregate_inv o1 o2 c pks F1 F2 HI) as [H _].
    destruct (cache_aggregate o1 o2 c pks). exact H.
  - apply agg_inv_new.
Qed.
Lemma crun_app h h' : crun (E := E) (h ++ h') = fold_left (fun c o => fst (cstep c o)) h' (crun h).
Proof. apply fold_left_app. Qed.
Lemma crun_inv h : Forall fair_op h -> agg_inv (crun h).
Proof.
  induction h as [|o h IH] using rev_ind; intros F; [apply agg_inv_new|].
  rewrite crun_app. cbn [fold_left]. apply Forall_app in F. destruct F as [F1 F2].
  apply cstep_inv; [inversion F2; assumption|apply IH; assumption].
Qed.

Lemma aggregate_any_history h o1 o2 pks : Forall fair_op h -> fair o1 -> fair o2 ->
  set_sum pks (snd (cache_aggregate o1 o2 (crun h) pks)).
Proof. intros F F1 F2. apply aggregate_inv; [assumption..|apply crun_inv; assumption]. Qed.

Lemma aggregate_history_independent h h' o1 o2 o1' o2' pks pks' :
  Forall fair_op h -> Forall fair_op h' -> fair o1 -> fair o2 -> fair o1' -> fair o2' ->
  (forall k, In k pks <-> In k pks') ->
  snd (cache_aggregate o1 o2 (crun h) pks) = snd (cache_aggregate o1' o2' (crun h') pks').
Proof.
  intros F F' F1 F2 F1' F2' Hi. apply (set_sum_unique pks).
  - apply aggregate_any_history; assumption.
  - destruct (aggregate_any_history h' o1' o2' pks' F' F1' F2') as [D [HN [HI HE]]].
    exists D. split; [assumption|]. split; [|assumption]. intros k. rewrite HI, Hi. reflexivity.
Qed.

(** C13 *)
Lemma cached_eq_plain h o1 o2 pks : Forall fair_op h -> fair o1 -> fair o2 -> NoDup pks ->
  snd (cache_aggregate o1 o2 (crun h) pks) = plain_aggregate pks.
Proof.
  intros F F1 F2 HN. unfold plain_aggregate. rewrite <- sum_of_gsum.
  apply (set_sum_unique pks); [apply aggregate_any_history; assumption|].
  exists pks. split; [assumption|]. split; [reflexivity|reflexivity].
Qed.
Lemma cached_excess h o1 o2 pks dups : Forall fair_op h -> fair o1 -> fair o2 ->
  (forall k, In k dups -> In k pks) -> NoDup pks ->
  plain_aggregate (pks ++ dups) = (snd (cache_aggregate o1 o2 (crun h) (pks ++ dups)) + plain_aggregate dups)%G.
Proof.
  intros F F1 F2 Hd HN. unfold plain_aggregate at 1. rewrite map_app, gsum_app. f_equal.
  rewrite (aggregate_history_independent h h o1 o2 o1 o2 (pks ++ dups) pks); try assumption.
  - symmetry. apply cached_eq_plain; assumption.
  - intros k. rewrite in_app_iff. split; [intros [|]; auto|auto].
Qed.
Lemma cached_neq_plain h o1 o2 pks dups : Forall fair_op h -> fair o1 -> fair o2 ->
  (forall k, In k dups -> In k pks) -> NoDup pks ->
  (snd (cache_aggregate o1 o2 (crun h) (pks ++ dups)) = plain_aggregate (pks ++ dups) <->
   plain_aggregate dups = gz).
Proof.
  intros F F1 F2 Hd HN. rewrite (cached_excess h o1 o2 pks dups) by assumption. split; intros H.
  - apply (ga_cancel_l (snd (cache_aggregate o1 o2 (crun h) (pks ++ dups)))). rewrite ga_0_r. symmetry; exact H.
  - rewrite H, ga_0_r. reflexivity.
Qed.
Lemma two_representations h o1 o2 a b : Forall fair_op h -> fair o1 -> fair o2 -> a <> b -> pt a = pt b ->
  snd (cache_aggregate o1 o2 (crun h) [a; b]) = (pt a + pt a)%G.
Proof.
  intros F F1 F2 Hne He. rewrite cached_eq_plain; try assumption.
  - unfold plain_aggregate. cbn [map]. rewrite !gsum_cons, gsum_nil, ga_0_r, He. reflexivity.
  - constructor; [|constructor; [intros []|constructor]]. cbn. intros [X|[]]. congruence.
Qed.

(** ** the decoded-key cache *)
Lemma lru_find_some (l : lru rep) d v : lru_find l d = Some v -> In (d, v) l.
Proof.
  unfold lru_find. destruct (find _ l) as [[d' v']|] eqn:X; [|discriminate].
  cbn. intros H; injection H as ->. apply find_some in X. destruct X as [Hi He]. cbn in He.
  apply bytes_eqb_spec in He. subst; assumption.
Qed.
Lemma lru_find_none (l : lru rep) d : lru_find l d = None -> ~ In d (map fst l).
Proof.
  unfold lru_find. destruct (find _ l) as [[d' v']|] eqn:X; [discriminate|]. intros _ Hi.
  apply in_map_iff in Hi. destruct Hi as [[d' v'] [He Hi]]. cbn in He. subst d'.
  pose proof (find_none _ _ X _ Hi) as N. cbn in N. apply bytes_eqb_false in N. congruence.
Qed.
Lemma map_fst_lru_remove (l : lru rep) d : map fst (lru_remove l d) = remove bytes_dec d (map fst l).
Proof.
  induction l as [|[d' v] l IH]; [reflexivity|]. cbn [lru_remove filter map fst remove].
  destruct (bytes_dec d d') as [->|Hne].
  - assert (X : bytes_eqb d' d' = true) by (apply bytes_eqb_spec; reflexivity). rewrite X. exact IH.
  - assert (X : bytes_eqb d d' = false) by (apply bytes_eqb_false; assumption). rewrite X. cbn [negb map fst].
    f_equal. exact IH.
Qed.
Lemma removelast_firstn {A} (l : list A) n : length l = S n -> removelast l = firstn n l.
Proof. intros H. rewrite removelast_firstn_len, H. reflexivity. Qed.

(** The values stored are the decodings of their keys. *)
Definition de_ok c : Prop := forall d v, In (d, v) (de c) -> decode d = Some v.

Lemma lru_remove_in (l : lru rep) d d' v : In (d', v) (lru_remove l d) -> In (d', v) l.
Proof. unfold lru_remove. rewrite filter_In. tauto. Qed.
Lemma in_removelast {A} (l : list A) x : In x (removelast l) -> In x l.
Proof.
  induction l as [|y l IH]; [trivial|]. cbn [removelast]. destruct l as [|z l]; [intros []|].
  intros [->|H]; [left; reflexivity|right; apply IH, H].
Qed.

Lemma deserialize_spec c d : de_ok c ->
  snd (cache_deserialize c d) = fresh_decode d /\ de_ok (fst (cache_deserialize c d)).
Proof.
  intros H. unfold cache_deserialize, lru_get, fresh_decode. destruct (lru_find (de c) d) as [v|] eqn:X.
  - apply lru_find_some in X. pose proof (H _ _ X) as Hd. rewrite Hd. split; [reflexivity|].
    intros d' v' [He|Hi]; [injection He as <- <-; assumption|]. apply lru_remove_in in Hi. apply H, Hi.
  - destruct (decode d) as [v|] eqn:Ed; cbn [fst snd]; (split; [reflexivity|]); [|exact H].
    intros d' v'. cbn [de]. unfold lru_put. rewrite X. intros [He|Hi]; [injection He as <- <-; assumption|].
    destruct (length (de c) =? DE_CAPACITY)%nat; [apply in_removelast in Hi|]; apply H, Hi.
Qed.
Lemma aggregate_de o1 o2 c pks : de (fst (cache_aggregate o1 o2 c pks)) = de c.
Proof. reflexivity. Qed.
Lemma cstep_de_ok c o : de_ok c -> de_ok (fst (cstep c o)).
Proof.
  destruct o as [d|o1 o2 pks|]; cbn [cstep]; intros H.
  - pose proof (deserialize_spec c d H) as [_ H']. destruct (cache_deserialize c d); exact H'.
  - exact H.
  - intros d v [].
Qed.
Lemma crun_de_ok (h : list (cop E)) : de_ok (crun h).
Proof.
  induction h as [|o h IH] using rev_ind; [intros d v []|]. rewrite crun_app. cbn [fold_left].
  apply cstep_de_ok, IH.
Qed.
Lemma deserialize_any_history (h : list (cop E)) d : snd (cache_deserialize (crun h) d) = fresh_decode (E := E) d.
Proof. apply deserialize_spec, crun_de_ok. Qed.
Lemma failure_not_cached (h : list (cop E)) d : decode (c := E) d = None ->
  fst (cache_deserialize (crun h) d) = crun h /\ ~ In d (map fst (de (crun h))).
Proof.
  intros Hd. pose proof (crun_de_ok h) as Hok.
  assert (Hn : ~ In d (map fst (de (crun h)))).
  { intros Hi. apply in_map_iff in Hi. destruct Hi as [[d' v] [He Hi]]. cbn in He; subst.
    apply Hok in Hi. congruence. }
  split; [|assumption]. unfold cache_deserialize, lru_get.
  destruct (lru_find (de (crun h)) d) as [v|] eqn:X.
  - apply lru_find_some in X. apply Hok in X. congruence.
  - rewrite Hd. destruct (crun h); reflexivity.
Qed.

(** ** capacity and eviction *)
Lemma firsts_NoDup (l : list bytes) : NoDup (firsts l).
Proof.
  induction l as [|x l IH]; cbn [firsts]; constructor.
  - apply remove_In.
  - clear -IH. induction IH as [|y l0 Hy Hn IHl]; cbn [remove]; [constructor|].
    destruct (bytes_dec x y); [assumption|]. constructor; [|assumption].
    intros Hi. apply in_remove in Hi. tauto.
Qed.

Lemma remove_firstn_in (x : bytes) (D : list bytes) n : NoDup D -> In x (firstn n D) ->
  remove bytes_dec x (firstn n D) = firstn (n - 1) (remove bytes_dec x D).
Proof.
  revert n. induction D as [|y D IH]; intros n HN Hi; [destruct n; destruct Hi|].
  destruct n as [|n]; [destruct Hi|]. inversion HN as [|? ? Hy HN']; subst.
  cbn [firstn remove]. replace (S n - 1)%nat with n by lia.
  destruct (bytes_dec x y) as [->|Hne].
  - rewrite !notin_remove; [reflexivity|assumption|].
    intros Hf. apply Hy. rewrite <- (firstn_skipn n D). apply in_or_app; left; assumption.
  - destruct Hi as [X|Hi]; [congruence|]. rewrite IH by assumption.
    destruct n as [|n]; [destruct Hi|]. cbn [firstn]. replace (S n - 1)%nat with n by lia. reflexivity.
Qed.
Lemma remove_firstn_notin (x : bytes) (D : list bytes) n : NoDup D -> ~ In x (firstn n D) ->
  firstn (n - 1) (remove bytes_dec x D) = firstn (n - 1) D.
Proof.
  revert n. induction D as [|y D IH]; intros n HN Hi; [reflexivity|].
  destruct n as [|n]; [reflexivity|]. replace (S n - 1)%nat with n by lia.
  inversion HN as [|? ? Hy HN']; subst. cbn [firstn] in Hi. cbn [remove].
  destruct (bytes_dec x y) as [->|Hne]; [exfalso; apply Hi; left; reflexivity|].
  destruct n as [|n]; [reflexivity|]. cbn [firstn]. f_equal.
  specialize (IH (S n) HN'). replace (S n - 1)%nat with n in IH by lia. apply IH.
  intros Hf. apply Hi. right. exact Hf.
Qed.

Lemma touch_firsts cap (x : bytes) (D : list bytes) : (0 < cap)%nat -> NoDup D ->
  (In x (firstn cap D) -> x :: remove bytes_dec x (firstn cap D) = firstn cap (x :: remove bytes_dec x D)) /\
  (~ In x (firstn cap D) ->
   x :: (if (length (firstn cap D) =? cap)%nat then removelast (firstn cap D) else firstn cap D)
   = firstn cap (x :: remove bytes_dec x D)).
Proof.
  intros Hc HN. destruct cap as [|n]; [lia|]. split; intros Hi; rewrite (firstn_cons n x); f_equal.
  - rewrite (remove_firstn_in x D (S n) HN Hi). f_equal. lia.
  - pose proof (remove_firstn_notin x D (S n) HN Hi) as R. replace (S n - 1)%nat with n in R by lia.
    rewrite R. destruct (Nat.eqb_spec (length (firstn (S n) D)) (S n)) as [El|El].
    + rewrite (removelast_firstn _ n El), firstn_firstn. f_equal. lia.
    + assert (L : (length D <= n)%nat) by (rewrite firstn_length in El; lia).
      rewrite !firstn_all2 by lia. reflexivity.
Qed.

Lemma map_removelast {A B} (f : A -> B) (l : list A) : map f (removelast l) = removelast (map f l).
Proof.
  induction l as [|x l IH]; [reflexivity|]. destruct l as [|y l]; [reflexivity|].
  change (removelast (x :: y :: l)) with (x :: removelast (y :: l)).
  change (map f (x :: y :: l)) with (f x :: map f (y :: l)).
  change (removelast (f x :: map f (y :: l))) with (f x :: removelast (map f (y :: l))).
  cbn [map]. rewrite IH. reflexivity.
Qed.

Lemma recent_app (h h' : list (cop E)) acc : recent (h ++ h') acc = recent h' (recent h acc).
Proof.
  revert acc. induction h as [|[d|o1 o2 pks|] h IH]; intros acc; cbn [app recent]; auto.
Qed.

Lemma de_keys_spec (h : list (cop E)) :
  map fst (de (crun h)) = firstn DE_CAPACITY (firsts (recent h [])).
Proof.
  induction h as [|o h IH] using rev_ind; [reflexivity|].
  rewrite crun_app, recent_app. cbn [fold_left].
  destruct o as [d|o1 o2 pks|]; cbn [cstep recent].
  - pose proof (firsts_NoDup (recent h [])) as HN.
    destruct (touch_firsts DE_CAPACITY d (firsts (recent h [])) ltac:(unfold DE_CAPACITY; lia) HN) as [T1 T2].
    rewrite <- IH in T1, T2.
    pose proof (crun_de_ok h) as Hok.
    unfold cache_deserialize, lru_get. destruct (lru_find (de (crun h)) d) as [v|] eqn:X.
    + apply lru_find_some in X. rewrite (Hok _ _ X). cbn [fst de map firsts].
      rewrite map_fst_lru_remove. apply T1. change d with (fst (d, v)). apply in_map, X.
    + destruct (decode d) as [v|] eqn:Ed; cbn [fst de].
      * unfold lru_put. rewrite X. cbn [map fst firsts].
        rewrite map_length in T2. rewrite <- T2 by (apply lru_find_none, X). f_equal.
        destruct (length (de (crun h)) =? DE_CAPACITY)%nat; [apply map_removelast|reflexivity].
      * exact IH.
  - exact IH.
  - reflexivity.
Qed.
Lemma de_capacity (h : list (cop E)) :
  (length (de (crun h)) <= 512)%nat /\ NoDup (map fst (de (crun h))).
Proof.
  split.
  - rewrite <- (map_length fst), de_keys_spec. apply firstn_le_length.
  - rewrite de_keys_spec. pose proof (firsts_NoDup (recent h [])) as H. revert H.
    generalize (firsts (recent h [])) as D0. generalize DE_CAPACITY as n. intros n D0 H.
    rewrite <- (firstn_skipn n D0) in H. revert H. generalize (firstn n D0) as A, (skipn n D0) as B. clear.
    intros A B. induction A as [|x A IH]; cbn [app]; intros H; [constructor|]. inversion H as [|? ? Hx H']; subst.
    constructor; [|apply IH; assumption]. intros Hi. apply Hx, in_or_app. left; assumption.
Qed.
End Proofs.

(** ** Threads *)
Section Conc.
Context {E : cenv}.
Notation G := (PG E).
Implicit Types (s : sys (E := E)).

Definition phase_call (p : phase (E := E)) : option (fcall E) :=
  match p with Hold f | Mid _ f => Some f | _ => None end.
Definition thread_fair (t : thread) : Prop :=
  Forall fair_call (prog t) /\ match phase_call (ph t) with Some f => fair_call f | None => True end.

Definition mid_ok (c : cache E) (p : phase) : Prop :=
  match p with
  | Mid comb f =>
    NoDup (keys c) /\ comb = sum_of (keys c) /\
    match f with
    | FAggregate _ _ pks | FSubtract _ _ _ pks => forall k, In k (keys c) <-> In k pks
    | FDeserialize _ => False
    end
  | _ => agg_inv c
  end.

Definition sys_inv s : Prop :=
  Forall thread_fair (threads s) /\ de_ok (shared s) /\
  (forall i t, nth_error (threads s) i = Some t -> ph t <> Idle -> lock s = Some i) /\
  match lock s with
  | None => agg_inv (shared s)
  | Some i => exists t, nth_error (threads s) i = Some t /\ ph t <> Idle /\ mid_ok (shared s) (ph t)
  end /\
  Forall (fun ev => alone (snd (fst ev)) (snd ev)) (trace s).

Lemma nth_set_same (l : list (thread (E := E))) i t t0 : nth_error l i = Some t0 ->
  nth_error (set_thread l i t) i = Some t.
Proof.
  intros H. unfold set_thread. assert (L : (i < length l)%nat) by (apply nth_error_Some; congruence).
  rewrite nth_error_app2; rewrite firstn_length_le by lia; [|lia]. rewrite Nat.sub_diag. reflexivity.
Qed.
Lemma nth_set_other (l : list (thread (E := E))) i j t t0 : nth_error l i = Some t0 -> i <> j ->
  nth_error (set_thread l i t) j = nth_error l j.
Proof.
  intros H Hne. unfold set_thread. assert (L : (i < length l)%nat) by (apply nth_error_Some; congruence).
  destruct (Nat.lt_ge_cases j i) as [Hj|Hj].
  - rewrite nth_error_app1 by (rewrite firstn_length_le; lia). 
    rewrite <- (firstn_skipn i l) at 2. rewrite nth_error_app1 by (rewrite firstn_length_le; lia). reflexivity.
  - rewrite nth_error_app2 by (rewrite firstn_length_le; lia). rewrite firstn_length_le by lia.
    destruct (j - i)%nat as [|m] eqn:Em; [lia|]. cbn [nth_error].
    rewrite <- (firstn_skipn (S i) l) at 2. rewrite nth_error_app2 by (rewrite firstn_length_le; lia).
    rewrite firstn_length_le by lia. f_equal. lia.
Qed.
Lemma set_thread_forall (P : thread (E := E) -> Prop) l i t : Forall P l -> P t -> Forall P (set_thread l i t).
Proof.
  intros F Ht. unfold set_thread. rewrite <- (firstn_skipn i l) in F. apply Forall_app in F.
  apply Forall_app. split; [tauto|]. constructor; [assumption|]. destruct F as [_ F].
  revert F. clear. revert i. induction l as [|x l IH]; intros [|i] F; cbn in *; auto.
  inversion F; assumption.
Qed.

Lemma sstep_inv s i s' : sys_inv s -> sstep true s i = Some s' -> sys_inv s'.
Proof.
  intros [HF [HD [HL [HC HT]]]] Hs. unfold sstep in Hs.
  destruct (nth_error (threads s) i) as [t|] eqn:Et; [|discriminate].
  assert (Ft : thread_fair t) by (rewrite Forall_forall in HF; apply HF; eapply nth_error_In; eassumption).
  destruct Ft as [Fp Fc].
  assert (Hother : forall t' j tj, nth_error (set_thread (threads s) i t') j = Some tj -> i <> j ->
            nth_error (threads s) j = Some tj).
  { intros t' j tj Hj Hne. rewrite (nth_set_other _ i j t' t Et Hne) in Hj. exact Hj. }
  assert (Hlock : ph t <> Idle -> forall t' j tj, nth_error (set_thread (threads s) i t') j = Some tj ->
            ph tj <> Idle -> i <> j -> False).
  { intros Hni t' j tj Hj Hnj Hne. pose proof (HL i t Et Hni) as L1.
    pose proof (HL j tj (Hother _ _ _ Hj Hne) Hnj) as L2. congruence. }
  destruct t as [pg [|f|comb f|]]; cbn [ph prog] in *.
  - (* acquire *)
    destruct pg as [|f rest]; [discriminate|]. destruct (lock s) as [l|] eqn:El; [discriminate|].
    injection Hs as <-. unfold sys_inv; cbn [shared lock threads trace].
    inversion Fp as [|? ? Ff Fr]; subst.
    split; [apply set_thread_forall; [assumption|split; assumption]|]. split; [assumption|]. split; [|split].
    + intros j tj Hj Hn. destruct (Nat.eq_dec i j) as [->|Hne]; [reflexivity|].
      pose proof (HL j tj (Hother _ _ _ Hj Hne) Hn) as X. discriminate.
    + exists (Thread rest (Hold f)). split; [eapply nth_set_same; eassumption|]. split; [discriminate|exact HC].
    + assumption.
  - pose proof (HL i _ Et ltac:(discriminate)) as L. rewrite L in HC. destruct HC as [t0 [Et0 [_ HM]]].
    rewrite Et in Et0. injection Et0 as <-. cbn [ph mid_ok] in HM.
    destruct f as [d|o1 o2 pks|o1 o2 agg pks].
    + pose proof (deserialize_spec (shared s) d HD) as [V HD']. pose proof (deserialize_keys (shared s) d) as [K C].
      destruct (cache_deserialize (shared s) d) as [c' x]. cbn [fst snd] in *. injection Hs as <-.
      unfold sys_inv; cbn [shared lock threads trace].
      split; [apply set_thread_forall; [assumption|split; [assumption|exact I]]|]. split; [assumption|]. split; [|split].
      * intros j tj Hj Hn. destruct (Nat.eq_dec i j) as [->|Hne]; [assumption|].
        exfalso. eapply Hlock; [discriminate|eassumption|assumption|assumption].
      * rewrite L. exists (Thread pg Fin). split; [eapply nth_set_same; eassumption|]. split; [discriminate|].
        cbn [ph mid_ok]. unfold agg_inv. rewrite K, C. exact HM.
      * apply Forall_app. split; [assumption|]. constructor; [exact V|constructor].
    + destruct Fc as [F1 F2]. destruct HM as [HN HE]. destruct (new_keys_spec pks) as [HN' HI].
      injection Hs as <-. unfold sys_inv; cbn [shared lock threads trace].
      split; [apply set_thread_forall; [assumption|split; [assumption|split; assumption]]|].
      split; [assumption|]. split; [|split].
      * intros j tj Hj Hn. destruct (Nat.eq_dec i j) as [->|Hne]; [assumption|].
        exfalso. eapply Hlock; [discriminate|eassumption|assumption|assumption].
      * rewrite L. eexists. split; [eapply nth_set_same; eassumption|]. split; [discriminate|].
        cbn [ph mid_ok keys]. split; [assumption|]. split; [|assumption].
        rewrite HE. apply new_combined_spec; assumption.
      * assumption.
    + destruct Fc as [F1 F2]. destruct HM as [HN HE]. destruct (new_keys_spec pks) as [HN' HI].
      injection Hs as <-. unfold sys_inv; cbn [shared lock threads trace].
      split; [apply set_thread_forall; [assumption|split; [assumption|split; assumption]]|].
      split; [assumption|]. split; [|split].
      * intros j tj Hj Hn. destruct (Nat.eq_dec i j) as [->|Hne]; [assumption|].
        exfalso. eapply Hlock; [discriminate|eassumption|assumption|assumption].
      * rewrite L. eexists. split; [eapply nth_set_same; eassumption|]. split; [discriminate|].
        cbn [ph mid_ok keys]. split; [assumption|]. split; [|assumption].
        rewrite HE. apply new_combined_spec; assumption.
      * assumption.
  - pose proof (HL i _ Et ltac:(discriminate)) as L. rewrite L in HC. destruct HC as [t0 [Et0 [_ HM]]].
    rewrite Et in Et0. injection Et0 as <-. cbn [ph mid_ok] in HM. destruct HM as [HN [HE HI]].
    injection Hs as <-. unfold sys_inv; cbn [shared lock threads trace].
    split; [apply set_thread_forall; [assumption|split; [assumption|exact I]]|].
    split; [assumption|]. split; [|split].
    + intros j tj Hj Hn. destruct (Nat.eq_dec i j) as [->|Hne]; [assumption|].
      exfalso. eapply Hlock; [discriminate|eassumption|assumption|assumption].
    + rewrite L. eexists. split; [eapply nth_set_same; eassumption|]. split; [discriminate|].
      cbn [ph mid_ok]. split; assumption.
    + apply Forall_app. split; [assumption|]. constructor; [|constructor]. cbn [fst snd].
      destruct f as [d|o1 o2 pks|o1 o2 agg pks]; [destruct HI| |]; cbn [alone].
      * exists (keys (shared s)). auto.
      * exists comb. split; [|reflexivity]. exists (keys (shared s)). auto.
  - pose proof (HL i _ Et ltac:(discriminate)) as L. rewrite L in HC. destruct HC as [t0 [Et0 [_ HM]]].
    rewrite Et in Et0. injection Et0 as <-. cbn [ph mid_ok] in HM.
    injection Hs as <-. unfold sys_inv; cbn [shared lock threads trace].
    split; [apply set_thread_forall; [assumption|split; [assumption|exact I]]|].
    split; [assumption|]. split; [|split; assumption].
    intros j tj Hj Hn. destruct (Nat.eq_dec i j) as [->|Hne].
    + rewrite (nth_set_same _ j _ _ Et) in Hj. injection Hj as <-. exfalso; apply Hn; reflexivity.
    + exfalso. eapply Hlock; [discriminate|eassumption|assumption|assumption].
Qed.

Lemma init_inv (progs : list (list (fcall E))) : Forall (Forall fair_call) progs -> sys_inv (sys_init progs).
Proof.
  intros F. unfold sys_init, sys_inv; cbn [shared lock threads trace]. split; [|split; [intros d v []|split; [|split]]].
  - apply Forall_map. eapply Forall_impl; [|exact F]. intros p Hp. split; [exact Hp|exact I].
  - intros i t Hi Hn. exfalso. apply Hn. apply nth_error_In in Hi. apply in_map_iff in Hi.
    destruct Hi as [p [<- _]]. reflexivity.
  - apply agg_inv_new.
  - constructor.
Qed.

Lemma srun_inv (progs : list (list (fcall E))) sched : Forall (Forall fair_call) progs ->
  sys_inv (srun true progs sched).
Proof.
  intros F. unfold srun. induction sched as [|i sched IH] using rev_ind; [apply init_inv; assumption|].
  rewrite fold_left_app. cbn [fold_left].
  destruct (sstep true _ i) as [s'|] eqn:X; [eapply sstep_inv; eassumption|assumption].
Qed.

Lemma every_call_as_if_alone (progs : list (list (fcall E))) sched i f out :
  Forall (Forall fair_call) progs -> In (i, f, out) (trace (srun true progs sched)) -> alone f out.
Proof.
  intros F Hi. destruct (srun_inv progs sched F) as [_ [_ [_ [_ HT]]]].
  rewrite Forall_forall in HT. apply (HT _ Hi).
Qed.

(** No deadlock: while some thread has work left, some thread can step. *)
Lemma progress (progs : list (list (fcall E))) sched i t :
  Forall (Forall fair_call) progs ->
  nth_error (threads (srun true progs sched)) i = Some t -> (prog t <> [] \/ ph t <> Idle) ->
  exists j s', sstep true (srun true progs sched) j = Some s'.
Proof.
  intros F Hi Hw. destruct (srun_inv progs sched F) as [_ [_ [HL [HC _]]]].
  set (s := srun true progs sched) in *.
  assert (Hnidle : forall j tj, nth_error (threads s) j = Some tj -> ph tj <> Idle ->
            exists s', sstep true s j = Some s').
  { intros j tj Hj Hn. unfold sstep. rewrite Hj. destruct (ph tj) as [|[d|o1 o2 pks|o1 o2 agg pks]|comb f|]; try congruence;
      try (eexists; reflexivity). destruct (cache_deserialize (shared s) d); eexists; reflexivity. }
  destruct (lock s) as [l|] eqn:El.
  - destruct HC as [tl [Htl [Hn _]]]. exists l. eapply Hnidle; eassumption.
  - exists i. destruct (ph t) eqn:Ep.
    2-4: eapply Hnidle; [eassumption|congruence].
    unfold sstep. rewrite Hi, Ep, El. destruct (prog t); [destruct Hw; congruence|]. eexists; reflexivity.
Qed.

(** Nothing is lost or reordered inside one thread. *)
Definition calls_of (i : nat) (tr : list (event (E := E))) : list (fcall E) :=
  map (fun ev => snd (fst ev)) (filter (fun ev => Nat.eqb (fst (fst ev)) i) tr).
Definition pending (t : thread (E := E)) : list (fcall E) :=
  match phase_call (ph t) with Some f => f :: prog t | None => prog t end.

Lemma calls_of_app i tr tr' : calls_of i (tr ++ tr') = calls_of i tr ++ calls_of i tr'.
Proof. unfold calls_of. rewrite filter_app, map_app. reflexivity. Qed.

Lemma sstep_calls b s i s' : sstep b s i = Some s' -> forall j t', nth_error (threads s') j = Some t' ->
  exists t, nth_error (threads s) j = Some t /\
    calls_of j (trace s') ++ pending t' = calls_of j (trace s) ++ pending t.
Proof.
  intros Hs j t' Hj. unfold sstep in Hs.
  destruct (nth_error (threads s) i) as [t|] eqn:Et; [|discriminate].
  assert (Gen : forall t2 c l ev, s' = Sys c l (set_thread (threads s) i t2) (trace s ++ ev) ->
     (i <> j -> calls_of j ev = []) -> (i = j -> calls_of j ev ++ pending t2 = pending t) ->
     exists t0, nth_error (threads s) j = Some t0 /\
       calls_of j (trace s') ++ pending t' = calls_of j (trace s) ++ pending t0).
  { intros t2 c l ev -> H1 H2. cbn [threads trace] in *. rewrite calls_of_app. destruct (Nat.eq_dec i j) as [->|Hne].
    - rewrite (nth_set_same _ j _ _ Et) in Hj. injection Hj as <-. exists t. split; [assumption|].
      rewrite <- app_assoc, H2 by reflexivity. reflexivity.
    - rewrite (nth_set_other _ i j _ _ Et Hne) in Hj. exists t'. split; [assumption|].
      rewrite H1, app_nil_r by assumption. reflexivity. }
  assert (One : forall f out, (i <> j -> calls_of j [(i, f, out)] = []) /\ (i = j -> calls_of j [(i, f, out)] = [f])).
  { intros f out. unfold calls_of. cbn [filter fst snd]. split; intros H.
    - destruct (Nat.eqb_spec i j); [congruence|reflexivity].
    - subst. rewrite Nat.eqb_refl. reflexivity. }
  destruct t as [pg [|f|comb f|]]; cbn [ph prog] in Hs.
  - destruct pg as [|f rest]; [discriminate|].
    assert (Es : Some (Sys (shared s) (Some i) (set_thread (threads s) i (Thread rest (Hold f))) (trace s)) = Some s').
    { destruct b; [destruct (lock s); [discriminate|]|]; exact Hs. }
    injection Es as <-. apply (Gen (Thread rest (Hold f)) (shared s) (Some i) []); [rewrite app_nil_r|..]; reflexivity.
  - destruct f as [d|o1 o2 pks|o1 o2 agg pks].
    + destruct (cache_deserialize (shared s) d) as [c' x]. injection Hs as <-.
      eapply Gen; [reflexivity|apply One|]. intros ->. rewrite (proj2 (One _ _) eq_refl). reflexivity.
    + injection Hs as <-. eapply (Gen _ _ _ []); [rewrite app_nil_r|..]; reflexivity.
    + injection Hs as <-. eapply (Gen _ _ _ []); [rewrite app_nil_r|..]; reflexivity.
  - injection Hs as <-. eapply Gen; [reflexivity|apply One|]. intros ->. rewrite (proj2 (One _ _) eq_refl). reflexivity.
  - injection Hs as <-. eapply (Gen _ _ _ []); [rewrite app_nil_r|..]; reflexivity.
Qed.

Lemma program_order b (progs : list (list (fcall E))) sched i t :
  nth_error (threads (srun b progs sched)) i = Some t ->
  nth_error progs i = Some (calls_of i (trace (srun b progs sched)) ++ pending t).
Proof.
  revert t. unfold srun. induction sched as [|k sched IH] using rev_ind; intros t Hi.
  - cbn [fold_left sys_init threads trace] in *. rewrite nth_error_map in Hi.
    destruct (nth_error progs i); [|discriminate]. injection Hi as <-. reflexivity.
  - rewrite fold_left_app in Hi |- *. cbn [fold_left] in Hi |- *.
    destruct (sstep b _ k) as [s'|] eqn:X; [|apply IH; assumption].
    destruct (sstep_calls _ _ _ _ X i t Hi) as [t0 [H0 ->]]. apply IH; assumption.
Qed.
End Conc.
