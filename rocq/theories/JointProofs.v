(** Proofs for C83. *)
From Verif Require Import Base Constants Group Field Curve BlsModel EncodingModel HasherModel PointModel HashCurveModel HashCurveSpec HashCurveProofs PropHashCurve CurveGroups CurveFinite CurveCount OrderSpec OrderProofs KeygenSpec KeygenProofs HashUniformSpec HashUniformProofs PropHashUniform JointSpec.

(** ** Products of lists *)
Section Product.
  Context {A : Type}.
  Fixpoint product (Ls : list (list A)) : list (list A) := match Ls with [] => [[]] | L :: Ls' => flat_map (fun a => map (cons a) (product Ls')) L end.
  Lemma product_in Ls l : In l (product Ls) <-> Forall2 (fun a L => In a L) l Ls.
  Proof.
    revert l. induction Ls as [|L Ls IH]; intros l; cbn [product].
    - split; [intros [<-|[]]; constructor|]. intros H. inversion H. left. reflexivity.
    - rewrite in_flat_map. split.
      + intros (a & Ia & H). apply in_map_iff in H as (l' & <- & H). constructor; [exact Ia|]. apply IH, H.
      + intros H. inversion H as [|a L' l' Ls' Ia HF]; subst. exists a. split; [exact Ia|]. apply in_map, IH, HF.
  Qed.
  Lemma product_nodup Ls : Forall (@NoDup A) Ls -> NoDup (product Ls).
  Proof.
    induction 1 as [|L Ls N _ IH]; cbn [product]; [constructor; [intros []|constructor]|]. apply nodup_flat; [exact N| |].
    - intros a _. apply FinFun.Injective_map_NoDup; [|exact IH]. intros u v E. congruence.
    - intros a b l _ _ Ha Hb. apply in_map_iff in Ha as (u & <- & _), Hb as (v & E & _). congruence.
  Qed.
  Lemma product_length Ls (k N : Z) : Forall (fun L => Z.of_nat (length L) * k = N) Ls -> Z.of_nat (length (product Ls)) * k ^ Z.of_nat (length Ls) = N ^ Z.of_nat (length Ls).
  Proof.
    induction 1 as [|L Ls E _ IH]; [reflexivity|]. cbn [product length]. rewrite (flat_length _ (length (product Ls))) by (apply Forall_forall; intros a _; apply map_length).
    rewrite Nat2Z.inj_succ, !Z.pow_succ_r, Nat2Z.inj_mul by apply Nat2Z.is_nonneg. rewrite <- E at 1. rewrite <- IH. ring.
  Qed.
End Product.

Lemma in_filters {A B} (F : B -> A -> bool) W (Q : A -> Prop) : lists_all Q W -> forall Ps Ts,
  Forall2 (fun a L => In a L) Ts (map (fun P => filter (F P) W) Ps) <-> length Ts = length Ps /\ Forall Q Ts /\ Forall2 (fun a P => F P a = true) Ts Ps.
Proof.
  intros HW. induction Ps as [|P Ps IH]; intros Ts; cbn [map length].
  - split; [intros F0; inversion F0; repeat constructor|]. intros (_ & _ & F0). inversion F0. constructor.
  - split.
    + intros F0. inversion F0 as [|a L Ts' Ls I F']; subst. apply IH in F' as (EL & FD & FH). apply filter_In in I as [I HP]. apply HW in I. split; [cbn [length]; rewrite EL; reflexivity|]. split; constructor; assumption.
    + intros (EL & FD & F0). inversion F0 as [|a P' Ts' Ps' HP FH]; subst. inversion FD as [|a' Ts'' D FD']; subst. injection EL as EL. constructor; [|apply IH; split; [|split]; assumption]. apply filter_In. split; [apply HW, D|exact HP].
Qed.

(** ** The outcome of a table *)
Section Outcome.
  Context (compat : bool) (sqrt : fq -> option fq) (sqrt_ok : sqrt_spec qmul sqrt).
  Notation cand := (candidate g1_curve g1_of G1_COFACTOR G1_BYTES (g1_from_random_bytes sqrt) compat).
  Definition outcome (ds : list bytes) : result (g1_curve * Z) := tries g1_curve (fun z => cand (nth (Z.to_nat z) ds [])) counters.
  Lemma tries_same f g l : (forall z, In z l -> f z = g z) -> tries g1_curve f l = tries g1_curve g l.
  Proof. induction l as [|z l IH]; intros E; [reflexivity|]. cbn [tries]. rewrite (E z) by (left; reflexivity). rewrite IH by (intros y I; apply E; right; exact I). reflexivity. Qed.
  Lemma counter_in z : In z counters -> exists i, z = Z.of_nat i /\ (i < 255)%nat.
  Proof. intros I. unfold counters in I. apply in_map_iff in I as (i & <- & I). apply in_seq in I. exists i. split; [reflexivity|]. unfold NUM_TRIES in I. lia. Qed.
  Lemma query_outcome h q ds P : answered h q ds -> (query_hash compat sqrt h q = Ok P <-> exists c, outcome ds = Ok (P, c)).
  Proof.
    intros A. unfold query_hash, answered in *. destruct (q_cip22 q).
    - rewrite (proj2 (C25_hash_is_attempt compat h g1_curve g1_of G1_COFACTOR sqrt _ _ _ P)). unfold g1_attempt_cip22, hash_with_attempt_cip22. change (hash_bytes G1_BYTES) with 64. rewrite (proj1 (A 0%nat (Nat.lt_0_succ _))). cbn [rbind].
      unfold outcome. rewrite (tries_same _ (fun z => cand (nth (Z.to_nat z) ds []))); [reflexivity|]. intros z I. apply counter_in in I as (i & -> & Hi). unfold try_cip22. change (hash_bytes G1_BYTES) with 64. rewrite (proj2 (A i Hi)), Nat2Z.id. reflexivity.
    - rewrite (proj1 (C25_hash_is_attempt compat h g1_curve g1_of G1_COFACTOR sqrt _ _ _ P)). unfold g1_attempt, hash_with_attempt.
      unfold outcome. rewrite (tries_same _ (fun z => cand (nth (Z.to_nat z) ds []))); [reflexivity|]. intros z I. apply counter_in in I as (i & -> & Hi). unfold try_plain. change (hash_bytes G1_BYTES) with 64. rewrite (A i Hi), Nat2Z.id. reflexivity.
  Qed.
End Outcome.

Lemma tries_total {E : grp} (cand : bytes -> result (option E)) f ds : Forall (fun d => exists o, cand d = Ok o) ds -> forall a, (forall i, (i < length ds)%nat -> f (Z.of_nat (a + i)) = cand (nth i ds [])) ->
  (match tries E f (map Z.of_nat (seq a (length ds))) with Ok _ => true | _ => false end) = negb (match tries E f (map Z.of_nat (seq a (length ds))) with Err HashToCurveError => true | _ => false end).
Proof.
  induction 1 as [|d ds (o & HD) _ IH]; intros a HF; [reflexivity|]. cbn [length seq map tries]. pose proof (HF 0%nat (Nat.lt_0_succ _)) as F0. rewrite Nat.add_0_r in F0. cbn [nth] in F0. rewrite F0, HD. cbn [rbind].
  destruct o as [Q|]; [reflexivity|]. apply IH. intros i Hi. rewrite Nat.add_succ_comm. apply (HF (S i)). cbn [length]. lia.
Qed.
Lemma tables_length w n : Z.of_nat (length (words (words (zrange 256) w) n)) = (256 ^ Z.of_nat w) ^ Z.of_nat n.
Proof. rewrite words_length, Nat2Z.inj_pow, words_length, Nat2Z.inj_pow, zrange_length by lia. reflexivity. Qed.
Lemma two_cons {A B} (R : A -> B -> Prop) a b l l' : Forall2 R (a :: l) (b :: l') -> R a b /\ Forall2 R l l'. Proof. intros H. inversion H. split; assumption. Qed.
Lemma filter_none {A} (l : list A) : filter (fun _ => false) l = []. Proof. induction l as [|a l IH]; [reflexivity|exact IH]. Qed.
(** Pairs: the number of first components that have second ones, times the number of these. *)
Lemma pairs_length {A B} (G : A -> bool) (F : A -> list B) (k N : Z) W : (forall a, In a W -> if G a then Z.of_nat (length (F a)) * k = N else F a = []) ->
  Z.of_nat (length (flat_map (fun a => map (pair a) (F a)) W)) * k = Z.of_nat (count G W) * N.
Proof.
  induction W as [|a W IH]; intros H; [reflexivity|]. cbn [flat_map]. rewrite app_length, map_length, Nat2Z.inj_add, Z.mul_add_distr_r, IH by (intros b I; apply H; right; exact I).
  unfold count. cbn [filter]. specialize (H a (or_introl eq_refl)). destruct (G a); [rewrite H; cbn [length]; lia|]. rewrite H. cbn [length]. lia.
Qed.

Section Joint.
  Context (compat : bool) (sqrt : fq -> option fq) (sqrt_ok : sqrt_spec qmul sqrt).
  Notation out := (outcome compat sqrt).
  Definition hits_point (P : g1_curve) (ds : list bytes) : bool := match out ds with Ok (Q, _) => geqb Q P | _ => false end.
  Lemma hits_iff P ds : hits_point P ds = true <-> exists c, out ds = Ok (P, c).
  Proof.
    unfold hits_point. destruct (out ds) as [[Q c]|e|]; [|split; [intros K; discriminate K|intros (c & K); discriminate K]..]. rewrite geqb_spec. split; [intros ->; exists c; reflexivity|intros (c' & K); congruence].
  Qed.
  Context (W : list (list bytes)) (W_all : lists_all (digests 255) W).
  Lemma out_is ds : digests 255 ds -> exists f, out ds = tries g1_curve f counters /\ forall i, (i < 255)%nat -> f (Z.of_nat i) = candidate g1_curve g1_of G1_COFACTOR G1_BYTES (g1_from_random_bytes sqrt) compat (nth i ds []).
  Proof. intros _. eexists. split; [reflexivity|]. intros i Hi. cbv beta. rewrite Nat2Z.id. reflexivity. Qed.
  Lemma point_tables P : in_g1 (g1_to P) -> g1_to P <> None -> Z.of_nat (length (filter (hits_point P) W)) * (r - 1) = (2 ^ 512) ^ 255 - USELESS ^ 255.
  Proof.
    intros I NZ. apply (uniform_res compat sqrt sqrt_ok out out_is P _ I NZ). refine (lists_ext _ _ _ _ (lists_filter _ (hits_point P) _ W_all)). intros ds. rewrite hits_iff. reflexivity.
  Qed.
  Lemma answered_hits h qs Ts : Forall2 (answered h) qs Ts -> forall Ps, Forall2 (fun q P => query_hash compat sqrt h q = Ok P) qs Ps <-> Forall2 (fun ds P => hits_point P ds = true) Ts Ps.
  Proof.
    induction 1 as [|q ds qs Ts Aq _ IH]; intros Ps; [split; intros F; inversion F; constructor|]. split; intros F; inversion F as [|a P l Ps' HP HF]; subst; constructor; try (apply IH, HF).
    - apply hits_iff, (query_outcome compat sqrt h q ds P Aq), HP.
    - apply (query_outcome compat sqrt h q ds P Aq), hits_iff, HP.
  Qed.
  Lemma in_tables Ps Ts : Forall2 (fun ds L => In ds L) Ts (map (fun P => filter (hits_point P) W) Ps) <-> tables (length Ps) Ts /\ Forall2 (fun ds P => hits_point P ds = true) Ts Ps.
  Proof. unfold tables. rewrite and_assoc. exact (in_filters hits_point _ (digests 255) W_all Ps Ts). Qed.
  Lemma joint_list H qs Ps : answers_all H qs -> length Ps = length qs ->
    lists_all (fun Ts => tables (length qs) Ts /\ Forall2 (fun q P => query_hash compat sqrt (H Ts) q = Ok P) qs Ps) (product (map (fun P => filter (hits_point P) W) Ps)).
  Proof.
    intros A EL. split; [apply product_nodup, Forall_map, Forall_forall; intros P _; apply NoDup_filter, W_all|]. intros Ts. rewrite product_in, in_tables, EL.
    split; intros (T & F); (split; [exact T|]); apply (answered_hits (H Ts) qs Ts (A Ts T)); exact F.
  Qed.
  Lemma joint_uniform H qs Ps L : answers_all H qs -> length Ps = length qs -> Forall (fun P => in_g1 (g1_to P) /\ g1_to P <> None) Ps ->
    lists_all (fun Ts => tables (length qs) Ts /\ Forall2 (fun q P => query_hash compat sqrt (H Ts) q = Ok P) qs Ps) L ->
    Z.of_nat (length L) * (r - 1) ^ Z.of_nat (length qs) = ((2 ^ 512) ^ 255 - USELESS ^ 255) ^ Z.of_nat (length qs).
  Proof.
    intros A EL FP HL. rewrite (lists_all_length _ _ _ HL (joint_list H qs Ps A EL)), <- EL, <- (map_length (fun P => filter (hits_point P) W) Ps). apply product_length, Forall_map.
    revert FP. apply Forall_impl. intros P [I NZ]. apply point_tables; assumption.
  Qed.
  (** Two queries with the same point: for each first table that gives a point, the second tables that give the same one. *)
  Lemma failing_length : Z.of_nat (length (filter (fun ds => match out ds with Err HashToCurveError => true | _ => false end) W)) = USELESS ^ 255.
  Proof.
    apply (failing_res compat sqrt sqrt_ok out out_is). refine (lists_ext _ _ _ _ (lists_filter _ _ _ W_all)). intros ds. destruct (out ds) as [[Q c]|[]|]; split; intros [D K]; (split; [exact D|]); try reflexivity; discriminate K.
  Qed.
  Definition gives_point (ds : list bytes) : bool := match out ds with Ok _ => true | _ => false end.
  Definition agree (ds ds' : list bytes) : bool := match out ds with Ok (P, _) => hits_point P ds' | _ => false end.
  Lemma out_some ds P c : digests 255 ds -> out ds = Ok (P, c) -> in_g1 (g1_to P) /\ g1_to P <> None.
  Proof.
    intros D H. apply tries_ok in H as (k & Hk & Ec & Hc & _). subst c. cbv beta in Hc. rewrite Nat2Z.id in Hc. cbn [Nat.add] in Hc. apply (cand_some compat sqrt sqrt_ok 16 64 eq_refl) in Hc as (NZ & Q & _ & ->).
    - split; [|intros K; apply NZ, g1_to_inj; exact K]. apply in_g1_iff. rewrite <- smul_mul. apply (fo_kills _ _ g1_order).
    - apply range_bytes. destruct D as [L F]. rewrite Forall_forall in F. apply F, nth_In. rewrite L. exact Hk.
  Qed.
  Lemma out_total ds : digests 255 ds -> gives_point ds = negb (match out ds with Err HashToCurveError => true | _ => false end).
  Proof.
    intros D. pose proof (table_cand compat sqrt 16 64 255 eq_refl ds D) as F. destruct (out_is ds D) as (f & E & HF). unfold gives_point. rewrite E. destruct D as [L _].
    assert (HF' : forall i, (i < length ds)%nat -> f (Z.of_nat (0 + i)) = candidate g1_curve g1_of G1_COFACTOR G1_BYTES (g1_from_random_bytes sqrt) compat (nth i ds [])) by (intros i Hi; apply HF; rewrite <- L; exact Hi).
    change counters with (map Z.of_nat (seq 0 255)). rewrite <- L. clear -F HF'. exact (tries_total _ f ds F 0%nat HF').
  Qed.
  Notation pairs := (map (fun '(ds, ds') => [ds; ds']) (flat_map (fun ds => map (pair ds) (filter (agree ds) W)) W)).
  Lemma pairs_all H q q' : answers_all H [q; q'] -> lists_all (fun Ts => tables 2 Ts /\ exists P, query_hash compat sqrt (H Ts) q = Ok P /\ query_hash compat sqrt (H Ts) q' = Ok P) pairs.
  Proof.
    intros A. destruct W_all as [ND WI]. split.
    - apply FinFun.Injective_map_NoDup; [intros [u v] [u' v'] E; congruence|]. apply nodup_flat; [exact ND| |].
      + intros a _. apply FinFun.Injective_map_NoDup; [intros u v E; congruence|apply NoDup_filter, ND].
      + intros a b l _ _ Ia Ib. apply in_map_iff in Ia as (u & <- & _), Ib as (v & E & _). congruence.
    - intros Ts. rewrite in_map_iff. split.
      + intros ([ds ds'] & <- & I). apply in_flat_map in I as (a & Ia & I). apply in_map_iff in I as (b & E & I). assert (a = ds) by congruence. assert (b = ds') by congruence. subst a b. clear E. apply filter_In in I as [I G]. apply WI in Ia, I.
        assert (T : tables 2 [ds; ds']) by (split; [reflexivity|constructor; [exact Ia|constructor; [exact I|constructor]]]). split; [exact T|]. pose proof (A _ T) as AT. apply two_cons in AT as [A1 AT]. apply two_cons in AT as [A2 _].
        unfold agree in G. destruct (out ds) as [[P c]|e|] eqn:E; try discriminate G. exists P. split; [apply (query_outcome compat sqrt _ q ds P A1); exists c; exact E|]. apply (query_outcome compat sqrt _ q' ds' P A2), hits_iff, G.
      + intros (T & P & H1 & H2). pose proof (A _ T) as AT. destruct T as [LT FT]. destruct Ts as [|ds [|ds' [|]]]; try discriminate LT. apply two_cons in AT as [A1 AT]. apply two_cons in AT as [A2 _].
        apply Forall_cons_iff in FT as [D FT]. apply Forall_cons_iff in FT as [D' _]. exists (ds, ds'). split; [reflexivity|]. apply in_flat_map. exists ds. split; [apply WI, D|]. apply in_map, filter_In. split; [apply WI, D'|].
        apply (query_outcome compat sqrt _ q ds P A1) in H1 as (c & H1). unfold agree. rewrite H1. apply hits_iff. apply (query_outcome compat sqrt _ q' ds' P A2), H2.
  Qed.
  Lemma collisions H q q' L T : Z.of_nat (length W) = T -> answers_all H [q; q'] ->
    lists_all (fun Ts => tables 2 Ts /\ exists P, query_hash compat sqrt (H Ts) q = Ok P /\ query_hash compat sqrt (H Ts) q' = Ok P) L ->
    Z.of_nat (length L) * (r - 1) = (T - USELESS ^ 255) * ((2 ^ 512) ^ 255 - USELESS ^ 255).
  Proof.
    intros ET A HL. rewrite (lists_all_length _ _ _ HL (pairs_all H q q' A)), map_length, (pairs_length gives_point (fun ds => filter (agree ds) W) (r - 1) ((2 ^ 512) ^ 255 - USELESS ^ 255)).
    - f_equal. pose proof (count_not gives_point W) as E. rewrite (count_ext (fun a => negb (gives_point a)) (fun ds => match out ds with Err HashToCurveError => true | _ => false end)) in E
        by (intros ds I; apply W_all in I; rewrite (out_total ds I); apply negb_involutive).
      unfold count in E at 2. apply (f_equal Z.of_nat) in E. rewrite Nat2Z.inj_add, failing_length, ET in E. rewrite <- E. ring.
    - intros ds I. apply W_all in I. unfold gives_point, agree. destruct (out ds) as [[P c]|e|] eqn:E; [|apply filter_none..].
      destruct (out_some ds P c I E) as [G NZ]. apply point_tables; assumption.
  Qed.
End Joint.

(** ** All tables *)
Lemma every_table : lists_all (digests 255) (words (words (zrange 256) 64) 255). Proof. exact (all_tables 64 255). Qed.
Lemma table_number : Z.of_nat (length (words (words (zrange 256) 64) 255)) = (2 ^ 512) ^ 255. Proof. rewrite tables_length, total_is. reflexivity. Qed.
Lemma exists_all_tables : exists W, lists_all (digests 255) W /\ Z.of_nat (length W) = (2 ^ 512) ^ 255.
Proof. exists (words (words (zrange 256) 64) 255). split; [exact every_table|exact table_number]. Qed.
Section Results.
  Context (compat : bool) (sqrt : fq -> option fq) (sqrt_ok : sqrt_spec qmul sqrt).
  Notation hashes H qs Ps := (fun Ts => tables (length qs) Ts /\ Forall2 (fun q P => query_hash compat sqrt (H Ts) q = Ok P) qs Ps).
  Lemma independent H qs Ps L : answers_all H qs -> length Ps = length qs -> Forall (fun P => in_g1 (g1_to P) /\ g1_to P <> None) Ps -> lists_all (hashes H qs Ps) L ->
    Z.of_nat (length L) * (r - 1) ^ Z.of_nat (length qs) = ((2 ^ 512) ^ 255 - USELESS ^ 255) ^ Z.of_nat (length qs).
  Proof. destruct exists_all_tables as (W & HW & _). exact (joint_uniform compat sqrt sqrt_ok W HW H qs Ps L). Qed.
  Lemma r_not_1 : r - 1 <> 0. Proof. intros K. discriminate K. Qed.
  Lemma cancel a b k n N : k <> 0 -> 0 <= n -> a * k ^ n = N -> b * k ^ n = N -> a = b.
  Proof. intros Hk Hn E1 E2. apply (Z.mul_reg_r _ _ (k ^ n)); [apply Z.pow_nonzero; assumption|]. rewrite E1, E2. reflexivity. Qed.
  Lemma equally_many H qs Ps Ps' L L' : answers_all H qs -> length Ps = length qs -> length Ps' = length qs ->
    Forall (fun P => in_g1 (g1_to P) /\ g1_to P <> None) Ps -> Forall (fun P => in_g1 (g1_to P) /\ g1_to P <> None) Ps' -> lists_all (hashes H qs Ps) L -> lists_all (hashes H qs Ps') L' -> length L = length L'.
  Proof.
    intros A E E' F F' HL HL'. apply Nat2Z.inj. exact (cancel _ _ _ _ _ r_not_1 (Nat2Z.is_nonneg _) (independent H qs Ps L A E F HL) (independent H qs Ps' L' A E' F' HL')).
  Qed.
  Lemma collision H q q' L : answers_all H [q; q'] ->
    lists_all (fun Ts => tables 2 Ts /\ exists P, query_hash compat sqrt (H Ts) q = Ok P /\ query_hash compat sqrt (H Ts) q' = Ok P) L ->
    Z.of_nat (length L) * (r - 1) = ((2 ^ 512) ^ 255 - USELESS ^ 255) ^ 2.
  Proof. intros A HL. destruct exists_all_tables as (W & HW & EW). rewrite (collisions compat sqrt sqrt_ok W HW H q q' L _ EW A HL). rewrite Z.pow_2_r. reflexivity. Qed.
End Results.
(** Different inputs can be answered independently. *)
Section Lookup.
  Context {K A : Type} (keqb : K -> K -> bool) (keqb_spec : forall a b, keqb a b = true <-> a = b).
  Fixpoint lookup (k : K) (ks : list K) (l : list A) (d : A) : A := match ks, l with k' :: ks', a :: l' => if keqb k k' then a else lookup k ks' l' d | _, _ => d end.
  Lemma lookup_all ks l d : NoDup ks -> length l = length ks -> Forall2 (fun k a => lookup k ks l d = a) ks l.
  Proof.
    intros N. revert l. induction N as [|k ks NI N IH]; intros [|a l] E; try discriminate E; [constructor|]. injection E as E. constructor; [cbn [lookup]; rewrite (proj2 (keqb_spec k k) eq_refl); reflexivity|].
    specialize (IH l E). assert (G : forall ks0 l0, Forall2 (fun k a => lookup k ks l d = a) ks0 l0 -> (forall x, In x ks0 -> In x ks) -> Forall2 (fun k0 b => lookup k0 (k :: ks) (a :: l) d = b) ks0 l0).
    { clear IH. induction 1 as [|k0 b ks0 l0 H _ IH]; intros S; constructor; [|apply IH; intros x I; apply S; right; exact I]. cbn [lookup]. destruct (keqb k0 k) eqn:D; [|exact H]. apply keqb_spec in D. subst k0. exfalso. apply NI, S. left. reflexivity. }
    apply G; [exact IH|trivial].
  Qed.
End Lookup.
Definition input_of (q : query) : bytes * bytes := (q_domain q, q_extra q ++ (if q_cip22 q then q_inner q else q_message q)).
Definition input_eqb (a b : bytes * bytes) : bool := if list_eq_dec Z.eq_dec (fst a) (fst b) then if list_eq_dec Z.eq_dec (snd a) (snd b) then true else false else false.
Lemma input_eqb_spec a b : input_eqb a b = true <-> a = b.
Proof. destruct a as [a1 a2], b as [b1 b2]. unfold input_eqb. cbn [fst snd]. destruct (list_eq_dec Z.eq_dec a1 b1) as [->|N], (list_eq_dec Z.eq_dec a2 b2) as [->|N']; split; intros E; try reflexivity; try discriminate E; congruence. Qed.
Definition tables_hasher (qs : list query) (Ts : list (list bytes)) : hasher :=
  mk_hasher (fun _ m _ => Ok m) (fun d m _ => Ok (nth (Z.to_nat (hd 0 m)) (lookup input_eqb (d, tl m) (map input_of qs) Ts []) [])).
Lemma forall2_map {A B C} (R : B -> C -> Prop) (f : A -> B) l l' : Forall2 R (map f l) l' -> Forall2 (fun a c => R (f a) c) l l'.
Proof. revert l'. induction l as [|a l IH]; intros l' H; inversion H; subst; constructor; [assumption|]. apply IH. assumption. Qed.
Lemma forall2_weaken {A B} (R R' : A -> B -> Prop) l l' : Forall2 R l l' -> (forall a b, In a l -> R a b -> R' a b) -> Forall2 R' l l'.
Proof. induction 1 as [|a b l l' H _ IH]; intros G; constructor; [apply G; [left; reflexivity|exact H]|]. apply IH. intros x y I. apply G. right. exact I. Qed.
Lemma tables_answer qs : NoDup (map input_of qs) -> Forall (fun q => q_inner q = q_message q) qs -> answers_all (tables_hasher qs) qs.
Proof.
  intros N FI Ts [LT _]. rewrite Forall_forall in FI. pose proof (lookup_all input_eqb input_eqb_spec (map input_of qs) Ts [] N ltac:(rewrite map_length; exact LT)) as F. apply forall2_map in F.
  apply (forall2_weaken _ _ _ _ F). intros q ds Iq E c Hc. unfold input_of at 1 in E. destruct (q_cip22 q).
  - cbn [tables_hasher crh xof app hd tl]. split; [rewrite (FI q Iq); reflexivity|]. rewrite E, Nat2Z.id. reflexivity.
  - unfold hash. cbn [tables_hasher crh xof rbind app hd tl]. rewrite E, Nat2Z.id. reflexivity.
Qed.
