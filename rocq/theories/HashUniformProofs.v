(** Proofs for C76. *)
From Coq Require Import Permutation.
From Verif Require Import Base Constants Group Field Curve BlsModel EncodingModel EncodingProofs HasherModel HasherProofs PointModel PointProofs HashCurveModel HashCurveSpec HashCurveProofs PropHashCurve CodecModel CodecProofs
  CurveGroups CurveFinite CurveOrder CurveCount OrderSpec OrderProofs KeygenSpec KeygenProofs HashUniformSpec.

(** ** Fibres of a multiplication in a finite group *)
Section Fibres.
  Context {G : grp} (all : list G) (all_nodup : NoDup all) (all_in : forall P, In P all) (c : Z).
  Notation fibre P := (fun Q => geqb (smul c Q) P).
  Lemma fibre_kernel Q0 : count (fibre (smul c Q0)) all = count (fibre gz) all.
  Proof.
    unfold count. rewrite <- (map_length (ga Q0) (filter (fibre gz) all)). apply (lists_all_length (fun Q => smul c Q = smul c Q0)); split.
    - apply NoDup_filter, all_nodup.
    - intros Q. rewrite filter_In, geqb_spec. split; [tauto|]. intros E. split; [apply all_in|exact E].
    - apply FinFun.Injective_map_NoDup; [intros x y; apply ga_cancel_l|apply NoDup_filter, all_nodup].
    - intros Q. rewrite in_map_iff. split.
      + intros (K & <- & I). apply filter_In in I as [_ E]. apply geqb_spec in E. rewrite smul_ga, E. apply ga_0_r.
      + intros E. exists (ga (gn Q0) Q). split; [rewrite ga_assoc, gn_r; apply ga_0_l|]. apply filter_In. split; [apply all_in|]. apply geqb_spec. rewrite smul_ga, smul_gn, E. apply gn_l.
  Qed.
  (** If all multiples lie among the [targets] and every target is one, all fibres have the same size. *)
  Lemma fibres_equal targets k : NoDup targets -> (forall Q, In (smul c Q) targets) -> (forall P, In P targets -> exists Q, smul c Q = P) -> Z.of_nat (length targets) <> 0 ->
    Z.of_nat (length all) = Z.of_nat (length targets) * k -> forall P, In P targets -> Z.of_nat (count (fibre P) all) = k.
  Proof.
    intros N I S NZ E P HP. set (m := count (fibre gz) all).
    assert (F : forall P, In P targets -> count (fibre P) all = m) by (intros P' HP'; destruct (S P' HP') as (Q & <-); apply fibre_kernel).
    rewrite (F P HP). assert (L : length all = (length targets * m)%nat).
    { rewrite <- (flat_length (fun P => filter (fibre P) all) m targets) by (apply Forall_forall; exact F). apply (lists_all_length (fun _ => True)); split.
      - exact all_nodup.
      - intros Q. split; [trivial|intros _; apply all_in].
      - apply nodup_flat; [exact N|intros a _; apply NoDup_filter, all_nodup|]. intros a a' Q _ _ H H'. apply filter_In in H as [_ H]. apply filter_In in H' as [_ H']. apply geqb_spec in H, H'. congruence.
      - intros Q. split; [trivial|intros _]. apply in_flat_map. exists (smul c Q). split; [apply I|]. apply filter_In. split; [apply all_in|]. apply geqb_spec. reflexivity. }
    rewrite L, Nat2Z.inj_mul in E. apply Z.mul_cancel_l in E; [exact E|exact NZ].
  Qed.
End Fibres.
Section Cofactor.
  Context {G : grp} (all : list G) (all_nodup : NoDup all) (all_in : forall P, In P all) (c c' : Z) (g : G) (o : Z) (o_is : o = r).
  Hypothesis g_order : smul o g = gz.
  Hypothesis g_not_0 : g <> gz.
  Hypothesis inverse : (c * c') mod o = 1.
  Hypothesis torsion : forall P : G, smul o P = gz -> exists k, 0 <= k < o /\ P = smul k g.
  Hypothesis kills : forall P : G, smul (o * c) P = gz.
  Hypothesis size : Z.of_nat (length all) = o * c.
  Lemma o_not_0 : o <> 0. Proof. rewrite o_is. intros K. discriminate K. Qed.
  Lemma o_mod k : smul (k mod o) g = smul k g. Proof. rewrite o_is. apply smul_mod_ord. rewrite <- o_is. exact g_order. Qed.
  Lemma o_inj k l : 0 <= k < o -> 0 <= l < o -> smul k g = smul l g -> k = l.
  Proof. intros Hk Hl E. apply (smul_inj_scalar g k l) in E; [|rewrite <- o_is; exact g_order|exact g_not_0]. rewrite <- o_is, !Z.mod_small in E by assumption. exact E. Qed.
  Definition multiples : list G := map (fun k => smul k g) (zrange o).
  Lemma multiples_length : Z.of_nat (length multiples) = o.
  Proof. unfold multiples. rewrite map_length. apply zrange_length. rewrite o_is. exact r_pos'. Qed.
  Lemma multiples_in P : smul o P = gz -> In P multiples.
  Proof. intros H. destruct (torsion P H) as (k & Hk & ->). apply (in_map (fun k => smul k g)). apply zrange_in, Hk. Qed.
  Lemma fibre_size P : smul o P = gz -> Z.of_nat (count (fun Q => geqb (smul c Q) P) all) = c.
  Proof.
    intros HP. apply (fibres_equal all all_nodup all_in c multiples c).
    - apply nodup_map_in; [apply zrange_nodup|]. intros k l Hk Hl E. apply zrange_in in Hk, Hl. exact (o_inj k l Hk Hl E).
    - intros Q. apply multiples_in. rewrite <- smul_mul. apply kills.
    - intros Q HQ. unfold multiples in HQ. apply in_map_iff in HQ as (k & <- & _). exists (smul (k * c') g). rewrite <- smul_mul.
      rewrite <- (o_mod (c * (k * c'))), <- (o_mod k). f_equal. replace (c * (k * c')) with (k * (c * c')) by ring.
      rewrite <- Z.mul_mod_idemp_r, inverse, Z.mul_1_r by exact o_not_0. reflexivity.
    - rewrite multiples_length. exact o_not_0.
    - rewrite multiples_length. exact size.
    - apply multiples_in, HP.
  Qed.
  Lemma not_killed_size : Z.of_nat (count (fun Q => negb (geqb (smul c Q) gz)) all) = c * (o - 1).
  Proof.
    pose proof (count_not (fun Q => geqb (smul c Q) gz) all) as E. pose proof (fibre_size gz (smul_gz o)) as F.
    apply (f_equal Z.of_nat) in E. rewrite Nat2Z.inj_add, size, F in E. rewrite <- (Z.add_simpl_l c (Z.of_nat (count (fun Q => negb (geqb (smul c Q) gz)) all))), E. ring.
  Qed.
End Cofactor.

(** ** Points of order 2 and 3 *)
Lemma g1_two (Q : g1_curve) X : g1_to Q = Some (X, q0) -> smul 2 Q = gz.
Proof.
  intros E. change 2 with (1 + 1). rewrite smul_add, smul_1. apply g1_to_inj. rewrite g1_to_add, E. unfold g1_add, ec_add, ec_double.
  assert (R : forall a, qeqb a a = true) by (intros a; apply qeqb_spec; reflexivity). rewrite !R. reflexivity.
Qed.
Lemma q_slope (d : fq) : qdiv (qmul (qadd q1 (qadd q1 q1)) (qmul q0 q0)) d = q0.
Proof. rewrite (Field_theory.Fdiv_def fq_field). ring. Qed.
Lemma g1_three (Q : g1_curve) Y : g1_to Q = Some (q0, Y) -> smul 3 Q = gz.
Proof.
  intros E. destruct (qeqb Y q0) eqn:Z.
  - apply qeqb_spec in Z. subst Y. exfalso. pose proof (g1_to_on Q) as O. rewrite E in O. vm_compute in O. discriminate O.
  - assert (D : ga Q Q = gn Q).
    { apply g1_to_inj. rewrite g1_to_add, E. change (g1_to (gn Q)) with (g1_neg (g1_to Q)). rewrite E. unfold g1_add, ec_add, ec_double, g1_neg, ec_neg.
      assert (R : forall a, qeqb a a = true) by (intros a; apply qeqb_spec; reflexivity). rewrite !R, Z, q_slope. unfold slope_point. f_equal. }
    change 3 with (1 + (1 + 1)). rewrite !smul_add, smul_1, D. apply gn_r.
Qed.
Lemma cof_two : G1_COFACTOR = G1_COFACTOR / 2 * 2. Proof. reflexivity. Qed.
Lemma cof_three : G1_COFACTOR = G1_COFACTOR / 3 * 3. Proof. reflexivity. Qed.
Lemma not_killed (Q : g1_curve) : smul G1_COFACTOR Q <> gz -> exists X Y, g1_to Q = Some (X, Y) /\ X <> q0 /\ Y <> q0.
Proof.
  intros N. destruct (g1_to Q) as [[X Y]|] eqn:E.
  - exists X, Y. split; [reflexivity|]. split; intros ->; apply N.
    + rewrite cof_three, smul_mul, (g1_three Q Y E). apply smul_gz.
    + rewrite cof_two, smul_mul, (g1_two Q X E). apply smul_gz.
  - exfalso. apply N. assert (Z : Q = gz) by (apply g1_to_inj; rewrite E; reflexivity). rewrite Z. apply smul_gz.
Qed.
(** The sign of an ordinate: whether it is the larger of y and -y. *)
Definition sign (Y : fq) : bool := negb (q_ltb Y (qopp Y)).
Lemma opp_differs Y : Y <> q0 -> qopp Y <> Y.
Proof.
  intros N E. apply N. assert (T : qmul (qadd q1 q1) Y = q0) by (transitivity (qadd (qopp Y) Y); [rewrite E at 1; ring|ring]).
  exact (k_integral fq q0 q1 qadd qmul qsub qopp qdiv qinv fq_field _ _ T q_two).
Qed.
Lemma sign_iff Y (s : bool) : Y <> q0 -> (if s then le1 (qopp Y) Y else le1 Y (qopp Y)) <-> s = sign Y.
Proof.
  intros N. unfold sign. assert (D : q_ltb Y (qopp Y) = false -> q_ltb (qopp Y) Y = true).
  { intros H. destruct (q_ltb (qopp Y) Y) eqn:F; [reflexivity|]. exfalso. exact (opp_differs Y N (q_ltb_total _ _ F H)). }
  destruct s; rewrite le1_ltb; destruct (q_ltb Y (qopp Y)) eqn:F; cbn [negb]; split; intros K; try discriminate K; try reflexivity.
  - apply q_ltb_asym, F.
  - rewrite (D eq_refl) in K. discriminate K.
Qed.

(** ** Digests that denote a point *)
Lemma range_bytes n l : In l (words (zrange 256) n) <-> length l = n /\ is_bytes l = true.
Proof.
  rewrite words_in. unfold is_bytes. rewrite forallb_forall, Forall_forall. split; intros [L F]; (split; [exact L|]); intros b I; specialize (F b I).
  - apply zrange_in in F. unfold is_byte. lia.
  - apply zrange_in. unfold is_byte in F. lia.
Qed.
Lemma bytes_skip n l : is_bytes l = true -> is_bytes (skipn n l) = true.
Proof. intros B. rewrite <- (firstn_skipn n l), is_bytes_app in B. apply andb_true_iff in B. apply B. Qed.
Section Digests.
  Context (compat : bool) (t : nat).
  Notation sb := (g1_sign_bit compat).
  Definition top_bit : Z := if compat then 0 else 6.
  Definition abscissa (Q : g1_curve) : Z := match g1_to Q with Some (X, _) => fqv X | None => 0 end.
  Definition sign_of (Q : g1_curve) : bool := match g1_to Q with Some (_, Y) => sign Y | None => false end.
  Definition tops (s : bool) : list Z := filter (fun h => Bool.eqb (Z.testbit h top_bit) s) (zrange 128).
  Lemma tops_length s : length (tops s) = 64%nat.
  Proof. unfold tops, top_bit. destruct compat, s; vm_compute; reflexivity. Qed.
  Lemma tops_in s h : In h (tops s) <-> 0 <= h < 128 /\ Z.testbit h top_bit = s.
  Proof. unfold tops. rewrite filter_In, zrange_in, Bool.eqb_true_iff. reflexivity. Qed.
  Definition value (Q : g1_curve) (h : Z) : Z := abscissa Q + 2 ^ 377 * h.
  Definition strings (Q : g1_curve) : list bytes := flat_map (fun h => map (fun u => le_bytes 48 (value Q h) ++ u) (words (zrange 256) t)) (tops (sign_of Q)).
  Lemma strings_length Q : length (strings Q) = (64 * length (words (zrange 256) t))%nat.
  Proof. unfold strings. rewrite (flat_length _ (length (words (zrange 256) t))); [rewrite tops_length; reflexivity|]. apply Forall_forall. intros h _. apply map_length. Qed.
  Lemma abscissa_range Q : 0 <= abscissa Q < 2 ^ 377.
  Proof.
    unfold abscissa. assert (0 < 2 ^ 377) by reflexivity. destruct (g1_to Q) as [[X Y]|]; [|lia]. pose proof (fqv_range X) as R. split; [apply R|]. apply (Z.lt_trans _ p); [apply R|reflexivity].
  Qed.
  Lemma value_range Q h : 0 <= h < 128 -> 0 <= value Q h < 256 ^ Z.of_nat 48.
  Proof. intros H. pose proof (abscissa_range Q) as A. unfold value. change (256 ^ Z.of_nat 48) with (2 ^ 377 * 128). revert A. generalize (abscissa Q). intros a A. assert (0 < 2 ^ 377) by reflexivity. revert A H0. generalize (2 ^ 377). intros M A H0. nia. Qed.
  Lemma value_parts Q h : 0 <= h -> value Q h mod 2 ^ 377 = abscissa Q /\ value Q h / 2 ^ 377 = h.
  Proof.
    intros H. pose proof (abscissa_range Q) as A. unfold value. rewrite (Z.mul_comm (2 ^ 377)). split.
    - rewrite Z.mod_add by (intros K; discriminate K). apply Z.mod_small, A.
    - rewrite Z.div_add by (intros K; discriminate K). rewrite Z.div_small by exact A. reflexivity.
  Qed.
  Lemma sb_top v : 0 <= v -> Z.testbit v sb = Z.testbit (v / 2 ^ 377) top_bit.
  Proof. intros H. rewrite <- Z.shiftr_div_pow2 by lia. unfold g1_sign_bit, top_bit. rewrite Z.shiftr_spec by (destruct compat; lia). destruct compat; reflexivity. Qed.
  (** For points the cofactor does not kill, the infinity flag and the case y = 0 do not matter. *)
  Lemma denotes_iff Q v : smul G1_COFACTOR Q <> gz -> (denotes_g1 sb v (g1_to Q) <-> v mod 2 ^ 377 = abscissa Q /\ Z.testbit v sb = sign_of Q).
  Proof.
    intros N. destruct (not_killed Q N) as (X & Y & E & NX & NY). unfold abscissa, sign_of. pose proof (g1_to_on Q) as O. rewrite E in *. unfold denotes_g1. rewrite (sign_iff Y _ NY). split.
    - intros (_ & _ & EX & _ & ES). split; [symmetry; exact EX|exact ES].
    - intros [EX ES]. rewrite EX. split; [apply fqv_range|]. split; [|split; [reflexivity|split; [|exact ES]]].
      + intros [Z _]. apply NX, fq_ext. rewrite Z. reflexivity.
      + unfold on_g1, on_curve in O. apply qeqb_spec in O. exact O.
  Qed.
  Lemma strings_in Q out : smul G1_COFACTOR Q <> gz ->
    (In out (strings Q) <-> length out = (48 + t)%nat /\ is_bytes out = true /\ denotes_g1 sb (number (firstn 48 out)) (g1_to Q)).
  Proof.
    intros N. rewrite (denotes_iff Q _ N). unfold strings. rewrite in_flat_map. split.
    - intros (h & Hh & I). apply tops_in in Hh as [Hh HS]. apply in_map_iff in I as (u & <- & I). apply range_bytes in I as [Lu Bu].
      assert (F : firstn 48 (le_bytes 48 (value Q h) ++ u) = le_bytes 48 (value Q h)).
      { rewrite firstn_app, le_bytes_length, Nat.sub_diag, firstn_O, app_nil_r. apply firstn_all2. rewrite le_bytes_length. apply Nat.le_refl. }
      rewrite F, number_le_bytes, (Z.mod_small (value Q h) (256 ^ Z.of_nat 48)) by (apply value_range, Hh). split; [rewrite app_length, le_bytes_length; exact (f_equal (Nat.add 48) Lu)|]. split; [rewrite is_bytes_app, le_bytes_is_bytes; exact Bu|].
      destruct (value_parts Q h (proj1 Hh)) as [V1 V2]. split; [exact V1|]. rewrite sb_top by (apply value_range, Hh). rewrite V2. exact HS.
    - intros (L & B & V & S). set (v := number (firstn 48 out)) in *. assert (L48 : length (firstn 48 out) = 48%nat) by (rewrite firstn_length, L; lia).
      assert (R : 0 <= v < 256 ^ Z.of_nat 48) by (rewrite <- L48 at 1; apply number_bound, is_bytes_firstn, B). exists (v / 2 ^ 377).
      assert (EV : value Q (v / 2 ^ 377) = v) by (unfold value; rewrite <- V, Z.add_comm; symmetry; apply Z.div_mod; intros K; discriminate K). split.
      + apply tops_in. split; [|rewrite <- sb_top; [exact S|apply R]]. split; [apply Z.div_pos; [apply R|reflexivity]|]. apply Z.div_lt_upper_bound; [reflexivity|apply R].
      + apply in_map_iff. exists (skipn 48 out). split; [|apply range_bytes; split; [rewrite skipn_length, L; lia|exact (bytes_skip 48 out B)]].
        rewrite EV. unfold v. rewrite <- L48 at 1. rewrite le_bytes_number by (apply is_bytes_firstn, B). apply firstn_skipn.
  Qed.
  Lemma denotes_unique out P P' : (48 <= length out)%nat -> is_bytes out = true -> denotes_g1 sb (number (firstn 48 out)) P -> denotes_g1 sb (number (firstn 48 out)) P' -> P = P'.
  Proof.
    intros L B H H'. assert (L48 : length (firstn 48 out) = 48%nat) by (rewrite firstn_length; lia). apply (g1_candidate_decode compat fq_sqrt _ _ fq_sqrt_ok L48 (is_bytes_firstn _ _ B)) in H, H'. congruence.
  Qed.
  Lemma strings_nodup Q : NoDup (strings Q).
  Proof.
    unfold strings. apply nodup_flat; [apply NoDup_filter, zrange_nodup| |].
    - intros h _. apply FinFun.Injective_map_NoDup; [intros u u' E; apply app_inv_head in E; exact E|apply words_nodup, zrange_nodup].
    - intros h h' out Hh Hh' I I'. apply tops_in in Hh as [Hh _], Hh' as [Hh' _]. apply in_map_iff in I as (u & <- & _), I' as (u' & E & _).
      apply (f_equal (fun l => number (firstn 48 l))) in E.
      assert (F : forall h u, 0 <= h < 128 -> number (firstn 48 (le_bytes 48 (value Q h) ++ u)) = value Q h).
      { intros k w Hk. rewrite firstn_app, le_bytes_length, Nat.sub_diag, firstn_O, app_nil_r, firstn_all2 by (rewrite le_bytes_length; apply Nat.le_refl). rewrite number_le_bytes. apply Z.mod_small, value_range, Hk. }
      rewrite !F in E by assumption. unfold value in E. apply Z.add_cancel_l, Z.mul_cancel_l in E; [symmetry; exact E|intros K; discriminate K].
  Qed.
  Context (all : list g1_curve) (all_nodup : NoDup all) (all_in : forall P, In P all).
  Lemma digest_count (B : g1_curve -> bool) L : (forall Q, B Q = true -> smul G1_COFACTOR Q <> gz) ->
    lists_all (fun out => length out = (48 + t)%nat /\ is_bytes out = true /\ exists Q, denotes_g1 sb (number (firstn 48 out)) (g1_to Q) /\ B Q = true) L ->
    length L = (count B all * (64 * length (words (zrange 256) t)))%nat.
  Proof.
    intros N HL. unfold count. rewrite <- (flat_length strings _ (filter B all)) by (apply Forall_forall; intros Q _; apply strings_length).
    apply (lists_all_length _ _ _ HL). split.
    - apply nodup_flat; [apply NoDup_filter, all_nodup|intros Q _; apply strings_nodup|]. intros Q Q' out HQ HQ' I I'. apply filter_In in HQ as [_ HQ], HQ' as [_ HQ'].
      apply (strings_in _ _ (N _ HQ)) in I as (L1 & B1 & D1). apply (strings_in _ _ (N _ HQ')) in I' as (_ & _ & D2). apply g1_to_inj. refine (denotes_unique out _ _ _ B1 D1 D2). rewrite L1. lia.
    - intros out. rewrite in_flat_map. split.
      + intros (Q & HQ & I). apply filter_In in HQ as [_ HQ]. apply (strings_in _ _ (N _ HQ)) in I as (L1 & B1 & D1). split; [exact L1|]. split; [exact B1|]. exists Q. split; [exact D1|exact HQ].
      + intros (L1 & B1 & Q & D1 & HQ). exists Q. split; [apply filter_In; split; [apply all_in|exact HQ]|]. apply (strings_in _ _ (N _ HQ)). split; [exact L1|]. split; [exact B1|exact D1].
  Qed.
End Digests.

(** ** The loop over a table of digests *)
Section At.
  Context {A : Type} (f : A -> option Z).
  Fixpoint hit (k : Z) (c : nat) (l : list A) : bool := match l, c with [], _ => false | a :: _, O => is k (f a) | a :: l', S c' => still (f a) && hit k c' l' end.
  Lemma count_hit_0 k W l : count (hit k 0) (flat_map (fun a => map (cons a) W) l) = (count (fun a => is k (f a)) l * length W)%nat.
  Proof.
    induction l as [|a l IH]; [reflexivity|]. cbn [flat_map]. rewrite count_app, count_map, IH, count_cons. cbn [hit]. destruct (is k (f a)); [rewrite count_all|rewrite count_none]; lia.
  Qed.
  Lemma count_hit_S k c W l : count (hit k (S c)) (flat_map (fun a => map (cons a) W) l) = (count (fun a => still (f a)) l * count (hit k c) W)%nat.
  Proof.
    induction l as [|a l IH]; [reflexivity|]. cbn [flat_map]. rewrite count_app, count_map, IH, count_cons. cbn [hit]. destruct (still (f a)); cbn [andb]; [|rewrite count_none]; [|lia].
    rewrite (count_ext _ (hit k c)) by (intros b _; reflexivity). lia.
  Qed.
  Lemma hit_count all k N q e : Z.of_nat (length all) = N -> Z.of_nat (count (fun a => still (f a)) all) = q -> Z.of_nat (count (fun a => is k (f a)) all) = e ->
    forall c n, Z.of_nat (count (hit k c) (words all (c + S n))) = q ^ Z.of_nat c * e * N ^ Z.of_nat n.
  Proof.
    intros EN Eq Ee. induction c as [|c IH]; intros n; cbn [Nat.add words].
    - rewrite count_hit_0, words_length, Nat2Z.inj_mul, Nat2Z.inj_pow, EN, Ee, Z.pow_0_r, Z.mul_1_l. reflexivity.
    - rewrite count_hit_S, Nat2Z.inj_mul, IH, Eq, Nat2Z.inj_succ, Z.pow_succ_r by apply Nat2Z.is_nonneg. ring.
  Qed.
End At.
Section Table.
  Context {E : grp} (cand : bytes -> result (option E)) (P : E).
  Definition code (d : bytes) : option Z := match cand d with Ok (Some Q) => Some (if geqb Q P then 1 else 0) | _ => None end.
  Lemma is_code d : is 1 (code d) = true <-> cand d = Ok (Some P).
  Proof.
    unfold code. destruct (cand d) as [[Q|]|x|]; cbn [is]; try (split; intros K; discriminate K). destruct (geqb Q P) eqn:D.
    - apply geqb_spec in D. subst Q. split; reflexivity.
    - split; [intros K; discriminate K|]. intros K. assert (Q = P) by congruence. apply geqb_spec in H. congruence.
  Qed.
  Lemma still_code d : (exists o, cand d = Ok o) -> (still (code d) = true <-> cand d = Ok None).
  Proof. intros (o & H). unfold code. rewrite H. destruct o as [Q|]; cbn [still]; split; intros K; try discriminate K; reflexivity. Qed.
  Lemma tries_hit ds : Forall (fun d => exists o, cand d = Ok o) ds -> forall f a c, (forall i, (i < length ds)%nat -> f (Z.of_nat (a + i)) = cand (nth i ds [])) ->
    (tries E f (map Z.of_nat (seq a (length ds))) = Ok (P, Z.of_nat (a + c)) <-> hit code 1 c ds = true).
  Proof.
    induction 1 as [|d ds HD _ IH]; intros f a c HF; [destruct c; split; intros K; discriminate K|]. cbn [length seq map tries].
    pose proof (HF 0%nat (Nat.lt_0_succ _)) as F0. rewrite Nat.add_0_r in F0. cbn [nth] in F0. rewrite F0.
    assert (HF' : forall i, (i < length ds)%nat -> f (Z.of_nat (S a + i)) = cand (nth i ds [])) by (intros i Hi; rewrite Nat.add_succ_comm; apply (HF (S i)); cbn [length]; lia).
    destruct c as [|c]; cbn [hit].
    - rewrite Nat.add_0_r, is_code. destruct HD as (o & HD). rewrite HD. cbn [rbind]. destruct o as [Q|].
      + split; intros K; [assert (Q = P) by congruence; subst Q; reflexivity|]. assert (Q = P) by congruence. subst Q. reflexivity.
      + split; [|intros K; discriminate K]. intros K. exfalso. apply tries_ok in K as (k & _ & Ek & _). lia.
    - rewrite andb_true_iff, <- (IH f (S a) c HF'), (still_code d HD), <- Nat.add_succ_comm. destruct HD as (o & HD). rewrite HD. cbn [rbind]. destruct o as [Q|].
      + split; [|intros [K _]; discriminate K]. intros K. exfalso. assert (Z.of_nat a = Z.of_nat (S a + c)) by congruence. lia.
      + split; [intros K; split; [reflexivity|exact K]|intros [_ K]; exact K].
  Qed.
  Lemma tries_first ds : Forall (fun d => exists o, cand d = Ok o) ds -> forall f a, (forall i, (i < length ds)%nat -> f (Z.of_nat (a + i)) = cand (nth i ds [])) ->
    ((exists c, tries E f (map Z.of_nat (seq a (length ds))) = Ok (P, c)) <-> is 1 (first_of code ds) = true) /\
    (tries E f (map Z.of_nat (seq a (length ds))) = Err HashToCurveError <-> still (first_of code ds) = true).
  Proof.
    induction 1 as [|d ds HD _ IH]; intros f a HF; [split; split; try (intros (c & K); discriminate K); try (intros K; discriminate K); reflexivity|]. cbn [length seq map tries].
    pose proof (HF 0%nat (Nat.lt_0_succ _)) as F0. rewrite Nat.add_0_r in F0. cbn [nth] in F0. rewrite F0.
    assert (HF' : forall i, (i < length ds)%nat -> f (Z.of_nat (S a + i)) = cand (nth i ds [])) by (intros i Hi; rewrite Nat.add_succ_comm; apply (HF (S i)); cbn [length]; lia).
    specialize (IH f (S a) HF'). destruct HD as (o & HD). pose proof (is_code d) as IC. cbn [first_of]. unfold code at 1 3. unfold code in IC. rewrite HD in IC |- *. cbn [rbind]. destruct o as [Q|]; [|exact IH]. split.
    - rewrite IC. split; [intros (c & K); congruence|]. intros K. exists (Z.of_nat a). congruence.
    - split; intros K; discriminate K.
  Qed.
End Table.

(** ** Counting tables *)
Lemma inverse_cofactor : (G1_COFACTOR * 5285428838741532253824584287042945485047145357130994810877) mod r = 1. Proof. vm_compute. reflexivity. Qed.
Section Count.
  Context (compat : bool) (sqrt : fq -> option fq) (sqrt_ok : sqrt_spec qmul sqrt) (t w : nat) (w_is : w = (48 + t)%nat).
  Notation cand := (candidate g1_curve g1_of G1_COFACTOR G1_BYTES (g1_from_random_bytes sqrt) compat).
  Notation D := (words (zrange 256) w).
  Notation N := (256 ^ Z.of_nat w).
  Notation e := (64 * 256 ^ Z.of_nat t * G1_COFACTOR).
  Lemma D_in (d : bytes) : In d D <-> @length byte d = w /\ is_bytes d = true. Proof. apply range_bytes. Qed.
  Lemma D_cand d : In d D -> exists o, cand d = Ok o.
  Proof.
    intros H. apply D_in in H as [L _]. unfold candidate, G1_BYTES. destruct (_ <? 48)%nat eqn:F; [exfalso; apply Nat.ltb_lt in F; assert (L' : length d = (48 + t)%nat) by (rewrite <- w_is; exact L); change byte with Z in F; lia|].
    destruct (g1_from_random_bytes _ _) as [Q|]; [|exists None; reflexivity]. destruct (geqb _ _); [exists None; reflexivity|]. eexists. reflexivity.
  Qed.
  Lemma cand_some d P : In d D -> (cand d = Ok (Some P) <-> P <> gz /\ exists Q, denotes_g1 (g1_sign_bit compat) (number (firstn 48 d)) (g1_to Q) /\ P = smul G1_COFACTOR Q).
  Proof.
    intros H. apply D_in in H as [L B]. unfold G1_BYTES. rewrite (candidate_some g1_of G1_COFACTOR 48 _ compat (denotes_g1 (g1_sign_bit compat)) (fun l Q Hl Hb => g1_candidate_decode compat sqrt l Q sqrt_ok Hl Hb) d P B). unfold gives. split.
    - intros (_ & Q & DQ & EP & NP). split; [exact NP|]. exists (g1_of Q). split; [|exact EP]. rewrite g1_to_of; [exact DQ|].
      destruct Q as [[X Y]|]; [|reflexivity]. unfold on_g1, on_curve. apply qeqb_spec. apply DQ.
    - intros (NP & Q & DQ & EP). split; [rewrite L, w_is; lia|]. exists (g1_to Q). split; [exact DQ|]. split; [rewrite g1_of_to; exact EP|exact NP].
  Qed.
  Lemma D_length : Z.of_nat (@length bytes D) = N.
  Proof. change bytes with (list Z). rewrite words_length, Nat2Z.inj_pow, zrange_length by lia. reflexivity. Qed.
  Lemma tail_length : Z.of_nat (length (words (zrange 256) t)) = 256 ^ Z.of_nat t.
  Proof. change bytes with (list Z). rewrite words_length, Nat2Z.inj_pow, zrange_length by lia. reflexivity. Qed.
  Context (P : g1_curve) (P_order : smul r P = gz) (P_not_0 : P <> gz).
  Lemma hits : Z.of_nat (count (fun d => is 1 (code cand P d)) D) = e.
  Proof.
    destruct (fo_list _ _ g1_order) as (all & NA & AA & LA). unfold count.
    refine (eq_trans (f_equal Z.of_nat (digest_count compat t all NA AA (fun Q => geqb (smul G1_COFACTOR Q) P) (filter (fun d => is 1 (code cand P d)) D) _ _)) _); cycle 2.
    - rewrite !Nat2Z.inj_mul, tail_length. change (Z.of_nat 64) with 64.
      rewrite (fibre_size all NA AA G1_COFACTOR _ g1_gen r eq_refl gen_order gen_not_0 inverse_cofactor (fun P H => proj1 (g1_torsion P) H) (fo_kills _ _ g1_order) LA P P_order). ring.
    - intros Q H. apply geqb_spec in H. rewrite H. exact P_not_0.
    - split; [apply NoDup_filter, words_nodup, zrange_nodup|]. intros d. rewrite filter_In, is_code. split.
      + intros [I C]. apply (cand_some d P I) in C as (_ & Q & DQ & ->). apply D_in in I as [L B]. split; [rewrite L; exact w_is|]. split; [exact B|]. exists Q. split; [exact DQ|]. apply geqb_spec. reflexivity.
      + intros (L & B & Q & DQ & EP). apply geqb_spec in EP. assert (I : In d D) by (apply D_in; split; [rewrite L; symmetry; exact w_is|exact B]). split; [exact I|]. apply (cand_some d P I). split; [exact P_not_0|]. exists Q. split; [exact DQ|symmetry; exact EP].
  Qed.
  Lemma misses : Z.of_nat (count (fun d => still (code cand P d)) D) = N - e * (r - 1).
  Proof.
    destruct (fo_list _ _ g1_order) as (all & NA & AA & LA). pose proof (count_not (fun d => still (code cand P d)) D) as E. apply (f_equal Z.of_nat) in E. rewrite Nat2Z.inj_add, D_length in E.
    assert (G : Z.of_nat (count (fun d => negb (still (code cand P d))) D) = e * (r - 1)).
    { unfold count at 1. refine (eq_trans (f_equal Z.of_nat (digest_count compat t all NA AA (fun Q => negb (geqb (smul G1_COFACTOR Q) gz)) (filter (fun d => negb (still (code cand P d))) D) _ _)) _); cycle 2.
      - rewrite !Nat2Z.inj_mul, tail_length. change (Z.of_nat 64) with 64.
        rewrite (not_killed_size all NA AA G1_COFACTOR _ g1_gen r eq_refl gen_order gen_not_0 inverse_cofactor (fun P H => proj1 (g1_torsion P) H) (fo_kills _ _ g1_order) LA). ring.
      - intros Q H. apply negb_true_iff in H. apply geqb_neq, H.
      - split; [apply NoDup_filter, words_nodup, zrange_nodup|]. intros d. rewrite filter_In. split.
        + intros [I C]. apply negb_true_iff in C. unfold code in C. destruct (D_cand d I) as ([P'|] & HP); rewrite HP in C; [|discriminate C]. apply (cand_some d P' I) in HP as (NP & Q & DQ & EP). apply D_in in I as [L B].
          split; [rewrite L; exact w_is|]. split; [exact B|]. exists Q. split; [exact DQ|]. apply negb_true_iff, geqb_neq. rewrite <- EP. exact NP.
        + intros (L & B & Q & DQ & EP). apply negb_true_iff, geqb_neq in EP. assert (I : In d D) by (apply D_in; split; [rewrite L; symmetry; exact w_is|exact B]). split; [exact I|].
          assert (C : cand d = Ok (Some (smul G1_COFACTOR Q))) by (apply (cand_some d _ I); split; [exact EP|]; exists Q; split; [exact DQ|reflexivity]). unfold code. rewrite C. reflexivity. }
    rewrite G in E. rewrite <- E. ring.
  Qed.
End Count.
Section Tables.
  Context (compat : bool) (sqrt : fq -> option fq) (sqrt_ok : sqrt_spec qmul sqrt) (t w n : nat) (w_is : w = (48 + t)%nat).
  Notation cand := (candidate g1_curve g1_of G1_COFACTOR G1_BYTES (g1_from_random_bytes sqrt) compat).
  Notation D := (words (zrange 256) w).
  Notation N := (256 ^ Z.of_nat w).
  Notation e := (64 * 256 ^ Z.of_nat t * G1_COFACTOR).
  Notation q := (N - e * (r - 1)).
  Definition table (ds : list bytes) : Prop := length ds = n /\ Forall (fun d => length d = w /\ is_bytes d = true) ds.
  Context (res : list bytes -> result (g1_curve * Z)).
  Hypothesis res_is : forall ds, table ds -> exists f, res ds = tries g1_curve f (map Z.of_nat (seq 0 n)) /\ forall i, (i < n)%nat -> f (Z.of_nat i) = cand (nth i ds []).
  Lemma table_in ds : In ds (@words bytes D n) <-> table ds.
  Proof.
    rewrite words_in. unfold table. rewrite !Forall_forall. split; intros [L F]; (split; [exact L|]); intros d I; [apply range_bytes, F, I|apply range_bytes; exact (F d I)].
  Qed.
  Lemma table_cand ds : table ds -> Forall (fun d => exists o, cand d = Ok o) ds.
  Proof. intros [_ F]. revert F. apply Forall_impl. intros d H. apply (D_cand compat sqrt t w w_is). apply range_bytes, H. Qed.
  Lemma all_tables : lists_all table (@words bytes D n).
  Proof. split; [apply words_nodup, words_nodup, zrange_nodup|exact table_in]. Qed.
  Lemma lists_count (F : list bytes -> bool) (Q : list bytes -> Prop) L : (forall ds, table ds -> (Q ds <-> F ds = true)) -> lists_all (fun ds => table ds /\ Q ds) L -> length L = count F (@words bytes D n).
  Proof.
    intros E H. unfold count. refine (lists_all_length _ _ _ H _). pose proof (lists_filter table F _ all_tables) as [ND I]. split; [exact ND|]. intros ds. rewrite I. split; intros [A B]; (split; [exact A|]); apply (E ds A); exact B.
  Qed.
  Lemma e_pos : 0 < e. Proof. assert (0 < 256 ^ Z.of_nat t) by (apply Z.pow_pos_nonneg; [reflexivity|apply Nat2Z.is_nonneg]). assert (0 < G1_COFACTOR) by reflexivity. revert H0. generalize G1_COFACTOR. intros c Hc. nia. Qed.
  Lemma uniform_tables P L : smul r P = gz -> P <> gz -> lists_all (fun ds => table ds /\ exists c, res ds = Ok (P, c)) L ->
    Z.of_nat (length L) * (r - 1) = N ^ Z.of_nat n - q ^ Z.of_nat n.
  Proof.
    intros O NZ H. rewrite (lists_count (fun ds => is 1 (first_of (code cand P) ds)) (fun ds => exists c, res ds = Ok (P, c)) L); [|intros ds T|exact H].
    - pose proof (first_count (code cand P) D 1 n N q e (D_length t w w_is) (misses compat sqrt sqrt_ok t w w_is P) (hits compat sqrt sqrt_ok t w w_is P O NZ)) as E.
      replace (N - q) with (e * (r - 1)) in E by ring. apply (Z.mul_reg_l _ _ e); [pose proof e_pos as EP; intros K; rewrite K in EP; discriminate EP|]. rewrite <- E. ring.
    - destruct (res_is ds T) as (f & -> & HF). pose proof T as [LT _]. rewrite <- LT. apply (tries_first cand P ds (table_cand ds T) f 0). intros i Hi. apply HF. rewrite <- LT. exact Hi.
  Qed.
  Lemma failing_tables L : lists_all (fun ds => table ds /\ res ds = Err HashToCurveError) L -> Z.of_nat (length L) = q ^ Z.of_nat n.
  Proof.
    intros H. rewrite (lists_count (fun ds => still (first_of (code cand g1_gen) ds)) (fun ds => res ds = Err HashToCurveError) L); [|intros ds T|exact H].
    - exact (still_count (code cand g1_gen) D n q (misses compat sqrt sqrt_ok t w w_is g1_gen)).
    - destruct (res_is ds T) as (f & -> & HF). pose proof T as [LT _]. rewrite <- LT. apply (tries_first cand g1_gen ds (table_cand ds T) f 0). intros i Hi. apply HF. rewrite <- LT. exact Hi.
  Qed.
  Lemma attempt_tables P c k L : n = (c + S k)%nat -> smul r P = gz -> P <> gz -> lists_all (fun ds => table ds /\ res ds = Ok (P, Z.of_nat c)) L ->
    Z.of_nat (length L) = q ^ Z.of_nat c * e * N ^ Z.of_nat k.
  Proof.
    intros En O NZ H. rewrite (lists_count (fun ds => hit (code cand P) 1 c ds) (fun ds => res ds = Ok (P, Z.of_nat c)) L); [|intros ds T|exact H].
    - rewrite En. exact (hit_count (code cand P) D 1 N q e (D_length t w w_is) (misses compat sqrt sqrt_ok t w w_is P) (hits compat sqrt sqrt_ok t w w_is P O NZ) c k).
    - destruct (res_is ds T) as (f & -> & HF). pose proof T as [LT _]. rewrite <- LT. apply (tries_hit cand P ds (table_cand ds T) f 0). intros i Hi. apply HF. rewrite <- LT. exact Hi.
  Qed.
End Tables.

(** ** The functions of the code *)
Lemma per_point_is : 64 * 256 ^ Z.of_nat 16 * G1_COFACTOR = PER_POINT. Proof. reflexivity. Qed.
Lemma total_is : 256 ^ Z.of_nat 64 = 2 ^ 512. Proof. reflexivity. Qed.
Lemma count_bound u b a T K n : 0 <= n -> 0 <= u -> 0 < b -> 0 <= a -> 0 <= T -> 0 <= K -> u * b <= a * T -> a ^ n * K <= b ^ n -> u ^ n * K <= T ^ n.
Proof.
  intros Hn Hu Hb Ha HT HK H1 H2. assert (P1 : (u * b) ^ n <= (a * T) ^ n) by (apply Z.pow_le_mono_l; split; [apply Z.mul_nonneg_nonneg; lia|exact H1]). rewrite !Z.pow_mul_l in P1.
  pose proof (Z.pow_pos_nonneg b n Hb Hn) as Pb. pose proof (Z.pow_nonneg T n HT) as PT. pose proof (Z.pow_nonneg u n Hu) as Pu.
  revert P1 H2 Pb PT Pu. generalize (u ^ n) (b ^ n) (a ^ n) (T ^ n). intros U B A W P1 H2 Pb PT Pu. nia.
Qed.
Lemma useless_bound : USELESS ^ 255 * 2 ^ 200 <= (2 ^ 512) ^ 255.
Proof.
  assert (U : 0 <= USELESS) by (apply Z.leb_le; vm_compute; reflexivity). assert (B : USELESS * 10000 <= 5799 * 2 ^ 512) by (apply Z.leb_le; vm_compute; reflexivity).
  assert (A : 5799 ^ 255 * 2 ^ 200 <= 10000 ^ 255) by (apply Z.leb_le; vm_compute; reflexivity).
  pose proof (Z.pow_nonneg 2 200 ltac:(lia)) as P1. pose proof (Z.pow_nonneg 2 512 ltac:(lia)) as P2.
  exact (count_bound USELESS 10000 5799 (2 ^ 512) (2 ^ 200) 255 ltac:(lia) U ltac:(lia) ltac:(lia) P2 P1 B A).
Qed.
Section Code.
  Context (compat : bool) (sqrt : fq -> option fq) (sqrt_ok : sqrt_spec qmul sqrt) (res : list bytes -> result (g1_curve * Z)).
  Notation cand := (candidate g1_curve g1_of G1_COFACTOR G1_BYTES (g1_from_random_bytes sqrt) compat).
  Hypothesis res_is : forall ds, digests 255 ds -> exists f, res ds = tries g1_curve f counters /\ forall i, (i < 255)%nat -> f (Z.of_nat i) = cand (nth i ds []).
  Lemma point_order P : in_g1 (g1_to P) -> g1_to P <> None -> smul r P = gz /\ P <> gz.
  Proof. intros I NZ. split; [apply in_g1_iff, I|]. intros ->. apply NZ. reflexivity. Qed.
  Lemma uniform_res P L : in_g1 (g1_to P) -> g1_to P <> None -> lists_all (fun ds => digests 255 ds /\ exists c, res ds = Ok (P, c)) L -> Z.of_nat (length L) * (r - 1) = (2 ^ 512) ^ 255 - USELESS ^ 255.
  Proof.
    intros I NZ H. destruct (point_order P I NZ) as [O N0]. pose proof (uniform_tables compat sqrt sqrt_ok 16 64 255 eq_refl res res_is P L O N0 H) as E. rewrite per_point_is, total_is in E. exact E.
  Qed.
  Lemma failing_res L : lists_all (fun ds => digests 255 ds /\ res ds = Err HashToCurveError) L -> Z.of_nat (length L) = USELESS ^ 255.
  Proof. intros H. pose proof (failing_tables compat sqrt sqrt_ok 16 64 255 eq_refl res res_is L H) as E. rewrite per_point_is, total_is in E. exact E. Qed.
  Lemma attempt_res P c L : 0 <= c < 255 -> in_g1 (g1_to P) -> g1_to P <> None -> lists_all (fun ds => digests 255 ds /\ res ds = Ok (P, c)) L -> Z.of_nat (length L) = USELESS ^ c * PER_POINT * (2 ^ 512) ^ (254 - c).
  Proof.
    intros Hc I NZ H. destruct (point_order P I NZ) as [O N0]. assert (En : 255%nat = (Z.to_nat c + S (Z.to_nat (254 - c)))%nat) by lia.
    assert (Ec : Z.of_nat (Z.to_nat c) = c) by (apply Z2Nat.id; lia). rewrite <- Ec in H.
    pose proof (attempt_tables compat sqrt sqrt_ok 16 64 255 eq_refl res res_is P (Z.to_nat c) (Z.to_nat (254 - c)) L En O N0 H) as E. rewrite per_point_is, total_is, Ec, Z2Nat.id in E by lia. exact E.
  Qed.
End Code.
Section Plain.
  Context (compat : bool) (sqrt : fq -> option fq) (sqrt_ok : sqrt_spec qmul sqrt) (H : list bytes -> HasherModel.hasher) (d m x : bytes).
  Lemma plain_table : answers H d m x -> forall ds, digests 255 ds -> exists f, g1_attempt compat (H ds) g1_curve g1_of G1_COFACTOR sqrt d m x = tries g1_curve f counters /\
    forall i, (i < 255)%nat -> f (Z.of_nat i) = candidate g1_curve g1_of G1_COFACTOR G1_BYTES (g1_from_random_bytes sqrt) compat (nth i ds []).
  Proof.
    intros A ds D. exists (try_plain g1_curve g1_of G1_COFACTOR G1_BYTES (g1_from_random_bytes sqrt) compat (H ds) d m x). split; [reflexivity|]. intros i Hi. unfold try_plain.
    change (hash_bytes G1_BYTES) with 64. rewrite (A ds i D Hi). reflexivity.
  Qed.
  Lemma cip22_table inner : answers_cip22 H d m x inner -> forall ds, digests 255 ds -> exists f, g1_attempt_cip22 compat (H ds) g1_curve g1_of G1_COFACTOR sqrt d m x = tries g1_curve f counters /\
    forall i, (i < 255)%nat -> f (Z.of_nat i) = candidate g1_curve g1_of G1_COFACTOR G1_BYTES (g1_from_random_bytes sqrt) compat (nth i ds []).
  Proof.
    intros A ds D. exists (try_cip22 g1_curve g1_of G1_COFACTOR G1_BYTES (g1_from_random_bytes sqrt) compat (H ds) d inner x). split.
    - unfold g1_attempt_cip22, hash_with_attempt_cip22. change (hash_bytes G1_BYTES) with 64. rewrite (proj1 (A ds 0%nat D (Nat.lt_0_succ _))). reflexivity.
    - intros i Hi. unfold try_cip22. change (hash_bytes G1_BYTES) with 64. rewrite (proj2 (A ds i D Hi)). reflexivity.
  Qed.
  Lemma lists_ext {A} (F F' : A -> Prop) L : (forall a, F a <-> F' a) -> lists_all F L -> lists_all F' L.
  Proof. intros E [N I]. split; [exact N|]. intros a. rewrite I. apply E. Qed.
  Lemma plain_uniform P L : answers H d m x -> in_g1 (g1_to P) -> g1_to P <> None ->
    lists_all (fun ds => digests 255 ds /\ g1_hash compat (H ds) g1_curve g1_of G1_COFACTOR sqrt d m x = Ok P) L -> Z.of_nat (length L) * (r - 1) = (2 ^ 512) ^ 255 - USELESS ^ 255.
  Proof.
    intros A I NZ HL. apply (uniform_res compat sqrt sqrt_ok (fun ds => g1_attempt compat (H ds) g1_curve g1_of G1_COFACTOR sqrt d m x) (plain_table A) P L I NZ).
    refine (lists_ext _ _ L _ HL). intros ds. rewrite (proj1 (C25_hash_is_attempt compat (H ds) g1_curve g1_of G1_COFACTOR sqrt d m x P)). reflexivity.
  Qed.
  Lemma cip22_uniform inner P L : answers_cip22 H d m x inner -> in_g1 (g1_to P) -> g1_to P <> None ->
    lists_all (fun ds => digests 255 ds /\ g1_hash_cip22 compat (H ds) g1_curve g1_of G1_COFACTOR sqrt d m x = Ok P) L -> Z.of_nat (length L) * (r - 1) = (2 ^ 512) ^ 255 - USELESS ^ 255.
  Proof.
    intros A I NZ HL. apply (uniform_res compat sqrt sqrt_ok (fun ds => g1_attempt_cip22 compat (H ds) g1_curve g1_of G1_COFACTOR sqrt d m x) (cip22_table inner A) P L I NZ).
    refine (lists_ext _ _ L _ HL). intros ds. rewrite (proj2 (C25_hash_is_attempt compat (H ds) g1_curve g1_of G1_COFACTOR sqrt d m x P)). reflexivity.
  Qed.
  Lemma plain_attempt P c L : answers H d m x -> 0 <= c < 255 -> in_g1 (g1_to P) -> g1_to P <> None ->
    lists_all (fun ds => digests 255 ds /\ g1_attempt compat (H ds) g1_curve g1_of G1_COFACTOR sqrt d m x = Ok (P, c)) L -> Z.of_nat (length L) = USELESS ^ c * PER_POINT * (2 ^ 512) ^ (254 - c).
  Proof. intros A. apply (attempt_res compat sqrt sqrt_ok (fun ds => g1_attempt compat (H ds) g1_curve g1_of G1_COFACTOR sqrt d m x) (plain_table A)). Qed.
  Lemma cip22_attempt inner P c L : answers_cip22 H d m x inner -> 0 <= c < 255 -> in_g1 (g1_to P) -> g1_to P <> None ->
    lists_all (fun ds => digests 255 ds /\ g1_attempt_cip22 compat (H ds) g1_curve g1_of G1_COFACTOR sqrt d m x = Ok (P, c)) L -> Z.of_nat (length L) = USELESS ^ c * PER_POINT * (2 ^ 512) ^ (254 - c).
  Proof. intros A. apply (attempt_res compat sqrt sqrt_ok (fun ds => g1_attempt_cip22 compat (H ds) g1_curve g1_of G1_COFACTOR sqrt d m x) (cip22_table inner A)). Qed.
  Lemma plain_failing L : answers H d m x -> lists_all (fun ds => digests 255 ds /\ g1_attempt compat (H ds) g1_curve g1_of G1_COFACTOR sqrt d m x = Err HashToCurveError) L ->
    Z.of_nat (length L) = USELESS ^ 255 /\ Z.of_nat (length L) * 2 ^ 200 <= (2 ^ 512) ^ 255.
  Proof.
    intros A HL. pose proof (failing_res compat sqrt sqrt_ok (fun ds => g1_attempt compat (H ds) g1_curve g1_of G1_COFACTOR sqrt d m x) (plain_table A) L HL) as E. split; [exact E|]. rewrite E. exact useless_bound.
  Qed.
  Lemma cip22_failing inner L : answers_cip22 H d m x inner -> lists_all (fun ds => digests 255 ds /\ g1_attempt_cip22 compat (H ds) g1_curve g1_of G1_COFACTOR sqrt d m x = Err HashToCurveError) L ->
    Z.of_nat (length L) = USELESS ^ 255 /\ Z.of_nat (length L) * 2 ^ 200 <= (2 ^ 512) ^ 255.
  Proof.
    intros A HL. pose proof (failing_res compat sqrt sqrt_ok (fun ds => g1_attempt_cip22 compat (H ds) g1_curve g1_of G1_COFACTOR sqrt d m x) (cip22_table inner A) L HL) as E. split; [exact E|]. rewrite E. exact useless_bound.
  Qed.
End Plain.
