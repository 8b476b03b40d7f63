From Verif Require Import Base Prime Constants Group Field Curve BlsModel BitsModel BitsProofs EncodingModel EncodingProofs Blake2 HasherModel
  PointModel HashCurveSpec PointProofs CodecModel CodecProofs Edwards PedersenModel PedersenSpec.

Opaque fq_of qadd qmul qsub qopp qinv qdiv.

(** ** Lists *)
Lemma skipn_add {A} a b (l : list A) : skipn a (skipn b l) = skipn (b + a) l.
Proof. revert l. induction b as [|b IH]; intros l; [reflexivity|]. destruct l; [rewrite !skipn_nil; reflexivity|apply IH]. Qed.
Lemma chunks_seq {A} n (l : list A) : (0 < n)%nat ->
  chunks n l = map (fun i => firstn n (skipn (n * i) l)) (seq 0 ((length l + n - 1) / n)).
Proof.
  intros Hn. rewrite <- chunks_length by assumption. revert l. apply (chunks_ind n); [assumption|reflexivity|].
  intros l Hl IH. rewrite chunks_cons by assumption. cbn [length seq map]. rewrite Nat.mul_0_r. cbn [skipn]. f_equal.
  rewrite IH at 1. rewrite <- seq_shift, map_map. apply map_ext. intros i. rewrite skipn_add. f_equal. f_equal. lia.
Qed.
Lemma ceil_mul n k : (0 < n)%nat -> ((n * k + n - 1) / n = k)%nat.
Proof. intros H. symmetry. apply (Nat.div_unique _ _ _ (n - 1)); lia. Qed.

Lemma bits_le_val_skipn n l : bits_le_val (skipn n l) = bits_le_val l / 2 ^ Z.of_nat n.
Proof.
  revert l. induction n as [|n IH]; intros l; [rewrite Z.div_1_r; reflexivity|].
  destruct l as [|b l]; [symmetry; apply Z.div_0_l; apply Z.pow_nonzero; lia|]. cbn [skipn bits_le_val]. rewrite IH.
  rewrite Nat2Z.inj_succ, Z.pow_succ_r by lia. rewrite <- Z.div_div by lia. f_equal.
  symmetry. rewrite Z.add_comm, Z.mul_comm. rewrite Z.div_add_l by lia. destruct b; cbn; lia.
Qed.

(** ** From affine pairs to the group *)
Lemma edp_ga (P Q : ed_grp) : edp (ga P Q) = ed_add (edp P) (edp Q). Proof. reflexivity. Qed.
Lemma edp_gn (P : ed_grp) : edp (gn P) = ed_neg (edp P). Proof. reflexivity. Qed.
Lemma edp_gz : edp (gz : ed_grp) = ed_zero. Proof. reflexivity. Qed.
Lemma ed_sum_edp (l : list ed_grp) : ed_sum (map edp l) = edp (gsum l).
Proof.
  unfold ed_sum, gsum. rewrite <- edp_gz. generalize (gz : ed_grp) as a. induction l as [|P l IH]; intros a; [reflexivity|].
  cbn [map fold_left]. rewrite <- edp_ga. apply IH.
Qed.

(** ** One chunk *)
Definition bit (b : bool) : Z := if b then 1 else 0.
Definition bits_digit (c : list bool) : Z :=
  (1 + bit (nth 0 c false) + 2 * bit (nth 1 c false)) * (if nth 2 c false then -1 else 1).
Lemma encode_chunk_smul c (G : ed_grp) : encode_chunk c (edp G) = edp (smul (bits_digit c) G).
Proof.
  unfold encode_chunk, bits_digit. destruct (nth 0 c false), (nth 1 c false), (nth 2 c false); cbn [bit];
    rewrite <- ?edp_ga, <- ?edp_gn; f_equal.
  all: match goal with |- _ = smul ?k _ => let k' := eval compute in k in change k with k' end.
  all: try (change (smul (-1) G) with (gn (smul 1 G)); change (smul (-2) G) with (gn (smul 2 G));
            change (smul (-3) G) with (gn (smul 3 G)); change (smul (-4) G) with (gn (smul 4 G))).
  all: try f_equal.
  all: try reflexivity.
  all: rewrite <- ?(smul_1 G) at 1.
  all: match goal with |- _ = smul ?k _ => idtac end.
  all: rewrite <- ?smul_add; reflexivity.
Qed.
Lemma bits_digit_spec c : length c = 3%nat -> bits_digit c = digit (bits_le_val c).
Proof.
  destruct c as [|a [|b [|d [|]]]]; try discriminate. intros _. destruct a, b, d; reflexivity.
Qed.

(** ** One window *)
Fixpoint horner (ds : list Z) : Z := match ds with [] => 0 | d :: ds' => d + 16 * horner ds' end.
Lemma horner_fold (f : nat -> Z) l : fold_right (fun j acc => f j + 16 * acc) 0 l = horner (map f l).
Proof. induction l as [|j l IH]; [reflexivity|]. cbn [fold_right map horner]. rewrite IH. reflexivity. Qed.

Lemma window_sum (B : ed_grp) cs : forall k n, (length cs <= n)%nat ->
  gsum (map (fun '(c, g) => smul (bits_digit c) g) (combine cs (map (fun j => smul (16 ^ Z.of_nat j) B) (seq k n)))) =
  smul (16 ^ Z.of_nat k * horner (map bits_digit cs)) B.
Proof.
  induction cs as [|c cs IH]; intros k n H.
  - cbn [map horner combine]. rewrite Z.mul_0_r. reflexivity.
  - destruct n as [|n]; [cbn [length] in H; lia|]. cbn [length] in H. cbn [seq map combine horner]. rewrite gsum_cons, IH by lia.
    rewrite <- smul_mul, <- smul_add. f_equal. rewrite Nat2Z.inj_succ, Z.pow_succ_r by lia. ring.
Qed.
Lemma window_list B gens : window_of B gens -> gens = map edp (map (fun j => smul (16 ^ Z.of_nat j) B) (seq 0 93)).
Proof.
  intros [L H]. apply nth_ext with ed_zero ed_zero.
  - rewrite !map_length, seq_length. exact L.
  - rewrite L. intros j Hj. rewrite H by exact Hj. symmetry.
    rewrite map_map. rewrite (nth_indep _ ed_zero (edp (smul (16 ^ Z.of_nat 0) B))) by (rewrite map_length, seq_length; exact Hj).
    rewrite (map_nth (fun x => edp (smul (16 ^ Z.of_nat x) B))). rewrite seq_nth by exact Hj. reflexivity.
Qed.
Lemma combine_map_r {A B C} (f : B -> C) (l : list A) (l' : list B) :
  combine l (map f l') = map (fun '(a, b) => (a, f b)) (combine l l').
Proof. revert l'. induction l as [|a l IH]; intros [|b l']; cbn; [reflexivity..|]. rewrite IH. reflexivity. Qed.
Lemma segment_smul B gens seg : window_of B gens -> (length seg <= 279)%nat ->
  segment_value seg gens = edp (smul (horner (map bits_digit (chunks 3 seg))) B).
Proof.
  intros W L. unfold segment_value. rewrite (window_list _ _ W). change CHUNK_SIZE with 3%nat.
  rewrite combine_map_r, map_map.
  rewrite (map_ext _ (fun x : list bool * ed_grp => edp (let '(c, g) := x in smul (bits_digit c) g))) by (intros [c g]; apply encode_chunk_smul).
  rewrite <- (map_map (fun x : list bool * ed_grp => let '(c, g) := x in smul (bits_digit c) g) edp). rewrite ed_sum_edp. f_equal.
  etransitivity; [apply (window_sum B (chunks 3 seg) 0 93)|].
  - rewrite chunks_length by lia. apply Nat.lt_succ_r. apply Nat.div_lt_upper_bound; lia.
  - f_equal. cbn [Z.of_nat]. rewrite Z.pow_0_r. lia.
Qed.

(** ** The bits of a message *)
Lemma number_le_val l : number l = le_val l.
Proof. induction l as [|b l IH]; [reflexivity|]. cbn [number le_val]. rewrite IH. reflexivity. Qed.
Lemma pad_length bits : length (pad_bits bits) = (3 * ((length bits + 2) / 3))%nat.
Proof.
  unfold pad_bits. change CHUNK_SIZE with 3%nat.
  pose proof (Nat.div_mod (length bits) 3 ltac:(lia)) as D. pose proof (Nat.mod_upper_bound (length bits) 3 ltac:(lia)) as U.
  destruct (Nat.eqb_spec (length bits mod 3) 0) as [E|E].
  - replace ((length bits + 2) / 3)%nat with (length bits / 3)%nat; [lia|]. apply (Nat.div_unique _ _ _ 2); lia.
  - rewrite app_length, repeat_length. replace ((length bits + 2) / 3)%nat with (length bits / 3 + 1)%nat; [lia|].
    apply (Nat.div_unique _ _ _ (length bits mod 3 - 1)); lia.
Qed.
Lemma pad_val bits : bits_le_val (pad_bits bits) = bits_le_val bits.
Proof.
  unfold pad_bits. destruct (_ =? _)%nat; [reflexivity|]. rewrite bits_le_val_app, bits_le_val_zeros. ring.
Qed.
Definition message_bits (m : bytes) : list bool := pad_bits (flat_map (byte_bits 8) m).
Lemma message_bits_length m : length (message_bits m) = (3 * chunk_count (length m))%nat.
Proof. unfold message_bits. rewrite pad_length, flat_bits_length. reflexivity. Qed.
Lemma message_bits_val m : is_bytes m = true -> bits_le_val (message_bits m) = number m.
Proof. intros H. unfold message_bits. rewrite pad_val, flat_bits_val by assumption. symmetry. apply number_le_val. Qed.

Lemma chunk_bits m k : is_bytes m = true -> (k < chunk_count (length m))%nat ->
  length (firstn 3 (skipn (3 * k) (message_bits m))) = 3%nat /\
  bits_le_val (firstn 3 (skipn (3 * k) (message_bits m))) = chunk (number m) k.
Proof.
  intros H Hk. split.
  - rewrite firstn_length, skipn_length, message_bits_length. lia.
  - rewrite bits_le_val_firstn, bits_le_val_skipn, message_bits_val by assumption. unfold chunk.
    change (2 ^ Z.of_nat 3) with 8. do 2 f_equal. change 8 with (2 ^ 3). rewrite <- Z.pow_mul_r by lia. f_equal. lia.
Qed.

Definition segment (m : bytes) (i : nat) : list bool := firstn 279 (skipn (279 * i) (message_bits m)).
Lemma segment_length m i : length (segment m i) = (3 * Nat.min 93 (chunk_count (length m) - 93 * i))%nat.
Proof. unfold segment. rewrite firstn_length, skipn_length, message_bits_length. lia. Qed.
Lemma segment_chunks m i : chunks 3 (segment m i) =
  map (fun j => firstn 3 (skipn (3 * (93 * i + j)) (message_bits m))) (seq 0 (Nat.min 93 (chunk_count (length m) - 93 * i))).
Proof.
  rewrite chunks_seq by lia. rewrite segment_length, ceil_mul by lia. apply map_ext_in. intros j Hj. apply in_seq in Hj.
  unfold segment. rewrite skipn_firstn_comm, firstn_firstn, skipn_add. f_equal; [lia|]. f_equal. lia.
Qed.
Lemma segment_coefficient m i : is_bytes m = true -> horner (map bits_digit (chunks 3 (segment m i))) = coefficient m i.
Proof.
  intros H. unfold coefficient. rewrite (horner_fold (fun j => digit (chunk (number m) (93 * i + j)))).
  rewrite segment_chunks, map_map. f_equal. apply map_ext_in. intros j Hj. apply in_seq in Hj.
  destruct (chunk_bits m (93 * i + j) H) as [L V]; [lia|]. rewrite bits_digit_spec by exact L. rewrite V. reflexivity.
Qed.
Lemma message_segments m : chunks 279 (message_bits m) = map (segment m) (seq 0 ((3 * chunk_count (length m) + 278) / 279)).
Proof. rewrite chunks_seq by lia. rewrite message_bits_length. replace (3 * chunk_count (length m) + 279 - 1)%nat with (3 * chunk_count (length m) + 278)%nat by lia. reflexivity. Qed.

(** ** Linear combinations *)
Lemma combination_app_zeros ks Bs n : combination (ks ++ repeat 0 n) Bs = combination ks Bs.
Proof.
  revert Bs. induction ks as [|k ks IH]; intros Bs.
  - cbn [app combination]. revert Bs. induction n as [|n IHn]; intros [|B Bs]; try reflexivity.
    cbn [repeat combination]. rewrite IHn. destruct Bs; rewrite smul_0, ga_0_l; reflexivity.
  - destruct Bs as [|B Bs]; [reflexivity|]. cbn [app combination]. rewrite IH. reflexivity.
Qed.
Lemma coefficient_beyond m i : (chunk_count (length m) <= 93 * i)%nat -> coefficient m i = 0.
Proof. intros H. unfold coefficient. replace (chunk_count (length m) - 93 * i)%nat with 0%nat by lia. reflexivity. Qed.
Lemma segment_count (m : bytes) : Z.of_nat (length m) <= 19530 ->
  Z.of_nat (chunk_count (length m)) <= 52080 /\ ((3 * chunk_count (length m) + 278) / 279 <= 560)%nat.
Proof.
  intros H. assert (C : Z.of_nat (chunk_count (length m)) <= 52080).
  { unfold chunk_count. rewrite Nat2Z.inj_div. apply Z.lt_succ_r, Z.div_lt_upper_bound; lia. }
  split; [exact C|]. apply Nat2Z.inj_le. rewrite Nat2Z.inj_div. apply Z.lt_succ_r, Z.div_lt_upper_bound; lia.
Qed.
Lemma coefficients_split (m : bytes) : Z.of_nat (length m) <= 19530 ->
  let s := ((3 * chunk_count (length m) + 278) / 279)%nat in
  coefficients m = map (coefficient m) (seq 0 s) ++ repeat 0 (560 - s).
Proof.
  intros H s. destruct (segment_count m H) as [_ L]. fold s in L. unfold coefficients.
  replace (seq 0 560) with (seq 0 s ++ seq s (560 - s)) by (rewrite <- seq_app; f_equal; lia). rewrite map_app. f_equal.
  assert (G : forall n k, (s <= k)%nat -> map (coefficient m) (seq k n) = repeat 0 n).
  { induction n as [|n IH]; intros k Hk; [reflexivity|]. cbn [seq map repeat]. rewrite IH by lia. f_equal.
    apply coefficient_beyond. assert (3 * chunk_count (length m) + 278 < 279 * S s)%nat.
    { unfold s. apply Nat.mul_succ_div_gt. lia. } lia. }
  apply G. lia.
Qed.
Lemma segments_sum m Bs gens : is_bytes m = true -> Forall2 window_of Bs gens -> forall l,
  map (fun '(s, g) => segment_value s g) (combine (map (segment m) l) gens) =
  map edp (map (fun '(k, B) => smul k B) (combine (map (coefficient m) l) Bs)).
Proof.
  intros H F. induction F as [|B g Bs gens W F IH]; intros [|i l]; try reflexivity.
  cbn [map combine]. rewrite IH. f_equal. rewrite (segment_smul B g (segment m i) W) by (rewrite segment_length; lia).
  rewrite segment_coefficient by exact H. reflexivity.
Qed.
Lemma combination_gsum ks : forall Bs, gsum (map (fun '(k, B) => smul k B) (combine ks Bs)) = combination ks Bs.
Proof. induction ks as [|k ks IH]; intros [|B Bs]; try reflexivity. cbn [combine map combination]. rewrite gsum_cons, IH. reflexivity. Qed.

Lemma windows_length Bs gens : Forall2 window_of Bs gens -> length Bs = length gens.
Proof. induction 1 as [|B g Bs gens W F IH]; [reflexivity|]. cbn [length]. f_equal. exact IH. Qed.
Lemma evaluate_value Bs gens m : Forall2 window_of Bs gens -> length Bs = 560%nat -> is_bytes m = true ->
  crh_evaluate gens m = if Z.of_nat (length m) <=? 19530 then Ok (edp (combination (coefficients m) Bs)) else Panic.
Proof.
  intros F L H. unfold crh_evaluate. change (Z.of_nat (WINDOW_SIZE * NUM_WINDOWS) * 3) with 156240.
  destruct (Z.leb_spec (Z.of_nat (length m)) 19530) as [Hm|Hm].
  2: { destruct (Z.ltb_spec 156240 (Z.of_nat (length m) * 8)) as [_|N]; [reflexivity|lia]. }
  destruct (Z.ltb_spec 156240 (Z.of_nat (length m) * 8)) as [N|_]; [lia|].
  assert (LG : length gens = 560%nat). { etransitivity; [|exact L]. symmetry. exact (windows_length Bs gens F). }
  rewrite LG. change (560 =? NUM_WINDOWS)%nat with true. cbn [andb].
  assert (W : forallb (fun g => (length g =? WINDOW_SIZE)%nat) gens = true).
  { apply forallb_forall. intros g Hg. clear - F Hg. induction F as [|B g' Bs gens [W _] F IH]; [destruct Hg|].
    destruct Hg as [->|Hg]; [rewrite W; reflexivity|apply IH; exact Hg]. }
  rewrite W. cbn [negb]. f_equal. change (WINDOW_SIZE * CHUNK_SIZE)%nat with 279%nat. fold (message_bits m).
  rewrite message_segments, (segments_sum m Bs gens H F), ed_sum_edp, combination_gsum.
  rewrite (coefficients_split m Hm), combination_app_zeros. reflexivity.
Qed.

(** ** The digest *)
Lemma ok_inj {A} (x y : A) : Ok x = Ok y -> x = y. Proof. congruence. Qed.
Definition x_of (P : ed_grp) : fq := fst (edp P).
Lemma fq_write_plain x : fq_write x 0 = le_bytes 48 (fqv x).
Proof. unfold fq_write. apply fq_write_none, fqv_range. Qed.
Lemma fq_plain_number x : number (fq_write x 0) = fqv x.
Proof.
  rewrite fq_write_plain, number_le_bytes. apply Z.mod_small. pose proof (fqv_range x) as R.
  change (256 ^ Z.of_nat 48) with (2 ^ 384). assert (p < 2 ^ 384) by reflexivity. lia.
Qed.
Lemma crh_value Bs gens m : Forall2 window_of Bs gens -> length Bs = 560%nat -> is_bytes m = true ->
  composite_crh gens m = if Z.of_nat (length m) <=? 19530 then Ok (fq_write (x_of (combination (coefficients m) Bs)) 0) else Panic.
Proof.
  intros F L H. unfold composite_crh. rewrite (evaluate_value Bs gens m F L H). destruct (_ <=? _); reflexivity.
Qed.
Lemma crh_output Bs gens m out : Forall2 window_of Bs gens -> length Bs = 560%nat -> is_bytes m = true ->
  composite_crh gens m = Ok out <->
  Z.of_nat (length m) <= 19530 /\ is_bytes out = true /\ length out = 48%nat /\ number out = fqv (x_of (combination (coefficients m) Bs)).
Proof.
  intros F L H. rewrite (crh_value Bs gens m F L H). destruct (Z.leb_spec (Z.of_nat (length m)) 19530) as [Hm|Hm].
  - set (x := x_of _). split.
    + intros E. apply ok_inj in E. subst out. split; [exact Hm|]. split; [rewrite fq_write_plain; apply le_bytes_is_bytes|].
      split; [apply fq_write_length|apply fq_plain_number].
    + intros (_ & Hb & Hl & Hn). f_equal. apply number_inj; [rewrite fq_write_plain; apply le_bytes_is_bytes|exact Hb| |].
      * rewrite fq_write_length. symmetry. exact Hl.
      * rewrite Hn. apply fq_plain_number.
  - split; [intros E; discriminate E|intros (N & _); lia].
Qed.

(** ** The scalars determine the message *)
Definition is_digit (d : Z) : Prop := Z.abs d <= 4 /\ d <> 0.
Lemma digit_is_digit t : 0 <= t < 8 -> is_digit (digit t).
Proof.
  intros H. unfold is_digit, digit. pose proof (Z.mod_pos_bound t 4 ltac:(lia)). destruct (4 <=? t); lia.
Qed.
Lemma digit_inj t t' : 0 <= t < 8 -> 0 <= t' < 8 -> digit t = digit t' -> t = t'.
Proof.
  intros H H'. unfold digit.
  assert (C : forall t, 0 <= t < 8 -> t = (if 4 <=? t then 4 else 0) + t mod 4 /\ 0 <= t mod 4 < 4).
  { clear. intros t H. split; [|apply Z.mod_pos_bound; lia]. destruct (Z.leb_spec 4 t).
    - assert (E : t mod 4 = t - 4) by (symmetry; apply Z.mod_unique with 1; lia). lia.
    - rewrite Z.mod_small by lia. lia. }
  destruct (C t H) as [E R], (C t' H') as [E' R']. destruct (4 <=? t), (4 <=? t'); lia.
Qed.
Lemma horner_inj ds : forall ds', Forall is_digit ds -> Forall is_digit ds' -> horner ds = horner ds' -> ds = ds'.
Proof.
  induction ds as [|d ds IH]; intros [|d' ds'] F F' E.
  - reflexivity.
  - inversion F' as [|? ? [A B]]; subst. cbn [horner] in E. lia.
  - inversion F as [|? ? [A B]]; subst. cbn [horner] in E. lia.
  - inversion F as [|? ? [A B] F1]; subst. inversion F' as [|? ? [A' B'] F1']; subst. cbn [horner] in E.
    assert (d = d') by lia. subst d'. f_equal. apply IH; [assumption..|lia].
Qed.
Lemma horner_bound ds : Forall is_digit ds -> 15 * Z.abs (horner ds) <= 4 * (16 ^ Z.of_nat (length ds) - 1).
Proof.
  induction 1 as [|d ds [A B] F IH]; [reflexivity|]. cbn [horner length]. rewrite Nat2Z.inj_succ, Z.pow_succ_r by lia. lia.
Qed.
Lemma chunk_range v k : 0 <= chunk v k < 8. Proof. apply Z.mod_pos_bound. lia. Qed.
Definition window_digits (m : bytes) (i : nat) : list Z :=
  map (fun j => digit (chunk (number m) (93 * i + j))) (seq 0 (Nat.min 93 (chunk_count (length m) - 93 * i))).
Lemma coefficient_horner m i : coefficient m i = horner (window_digits m i).
Proof. apply (horner_fold (fun j => digit (chunk (number m) (93 * i + j)))). Qed.
Lemma window_digits_ok m i : Forall is_digit (window_digits m i).
Proof. apply Forall_forall. intros d Hd. apply in_map_iff in Hd. destruct Hd as (j & <- & _). apply digit_is_digit, chunk_range. Qed.
Lemma window_digits_length m i : length (window_digits m i) = Nat.min 93 (chunk_count (length m) - 93 * i).
Proof. unfold window_digits. rewrite map_length, seq_length. reflexivity. Qed.
Lemma coefficient_bound m i : 15 * Z.abs (coefficient m i) <= 4 * (16 ^ 93 - 1).
Proof.
  rewrite coefficient_horner. pose proof (horner_bound _ (window_digits_ok m i)) as B. rewrite window_digits_length in B.
  etransitivity; [exact B|]. apply Z.mul_le_mono_nonneg_l; [lia|]. apply Z.sub_le_mono_r. apply Z.pow_le_mono_r; lia.
Qed.
Lemma chunk_count_inj n n' : chunk_count n = chunk_count n' -> n = n'.
Proof.
  unfold chunk_count. intros E. pose proof (Nat.div_mod (8 * n + 2) 3 ltac:(lia)). pose proof (Nat.div_mod (8 * n' + 2) 3 ltac:(lia)).
  pose proof (Nat.mod_upper_bound (8 * n + 2) 3 ltac:(lia)). pose proof (Nat.mod_upper_bound (8 * n' + 2) 3 ltac:(lia)). lia.
Qed.
Lemma octal_inj K : forall v v', 0 <= v < 8 ^ Z.of_nat K -> 0 <= v' < 8 ^ Z.of_nat K ->
  (forall k, (k < K)%nat -> chunk v k = chunk v' k) -> v = v'.
Proof.
  induction K as [|K IH]; intros v v' H H' E; [cbn in H, H'; lia|].
  rewrite Nat2Z.inj_succ, Z.pow_succ_r in H, H' by lia.
  pose proof (E 0%nat ltac:(lia)) as E0. unfold chunk in E0. change (8 ^ Z.of_nat 0) with 1 in E0. rewrite !Z.div_1_r in E0.
  assert (D : v / 8 = v' / 8).
  { apply IH.
    - split; [apply Z.div_pos; lia|apply Z.div_lt_upper_bound; lia].
    - split; [apply Z.div_pos; lia|apply Z.div_lt_upper_bound; lia].
    - intros k Hk. pose proof (E (S k) ltac:(lia)) as Ek. unfold chunk in *.
      rewrite Nat2Z.inj_succ, Z.pow_succ_r in Ek by lia. rewrite <- !Z.div_div in Ek by (try apply Z.pow_pos_nonneg; lia). exact Ek. }
  pose proof (Z.div_mod v 8 ltac:(lia)). pose proof (Z.div_mod v' 8 ltac:(lia)). lia.
Qed.
Lemma map_seq_inj {A} (f g : nat -> A) n : forall k, map f (seq k n) = map g (seq k n) -> forall i, (k <= i < k + n)%nat -> f i = g i.
Proof.
  induction n as [|n IH]; intros k E i Hi; [lia|]. cbn [seq map] in E. inversion E as [[E0 E1]].
  destruct (Nat.eq_dec i k) as [->|N]; [exact E0|]. apply (IH (S k) E1). lia.
Qed.
Lemma number_bound l : is_bytes l = true -> 0 <= number l < 256 ^ Z.of_nat (length l).
Proof.
  induction l as [|b l IH]; [intros; cbn; lia|]. cbn [is_bytes forallb]. rewrite andb_true_iff. intros [Hb Hl]. specialize (IH Hl).
  unfold is_byte in Hb. apply andb_true_iff in Hb. destruct Hb as [B1 B2]. apply Z.leb_le in B1. apply Z.ltb_lt in B2.
  cbn [number length]. rewrite Nat2Z.inj_succ, Z.pow_succ_r by lia. unfold byte in *. lia.
Qed.
Lemma coefficients_inj m m' : is_bytes m = true -> is_bytes m' = true -> Z.of_nat (length m) <= 19530 -> Z.of_nat (length m') <= 19530 ->
  coefficients m = coefficients m' -> m = m'.
Proof.
  intros H H' L L' E. pose proof (map_seq_inj _ _ _ _ E) as C. clear E. cbn [plus] in C.
  assert (D : forall i, (i < 560)%nat -> window_digits m i = window_digits m' i).
  { intros i Hi. apply horner_inj; [apply window_digits_ok..|]. rewrite <- !coefficient_horner. apply C. lia. }
  destruct (segment_count m L) as [K _], (segment_count m' L') as [K' _].
  assert (Q : forall i, (i < 560)%nat -> Nat.min 93 (chunk_count (length m) - 93 * i) = Nat.min 93 (chunk_count (length m') - 93 * i)).
  { intros i Hi. rewrite <- !window_digits_length, D by exact Hi. reflexivity. }
  assert (CC : chunk_count (length m) = chunk_count (length m')).
  { destruct (Nat.lt_trichotomy (chunk_count (length m)) (chunk_count (length m'))) as [T|[T|T]]; [|exact T|]; exfalso.
    - pose proof (Nat.div_mod (chunk_count (length m)) 93 ltac:(lia)) as DM. pose proof (Nat.mod_upper_bound (chunk_count (length m)) 93 ltac:(lia)).
      assert (chunk_count (length m) / 93 < 560)%nat by (apply Nat2Z.inj_lt; rewrite Nat2Z.inj_div; apply Z.div_lt_upper_bound; lia).
      specialize (Q (chunk_count (length m) / 93)%nat). lia.
    - pose proof (Nat.div_mod (chunk_count (length m')) 93 ltac:(lia)) as DM. pose proof (Nat.mod_upper_bound (chunk_count (length m')) 93 ltac:(lia)).
      assert (chunk_count (length m') / 93 < 560)%nat by (apply Nat2Z.inj_lt; rewrite Nat2Z.inj_div; apply Z.div_lt_upper_bound; lia).
      specialize (Q (chunk_count (length m') / 93)%nat). lia. }
  pose proof (chunk_count_inj _ _ CC) as LL. apply number_inj; [assumption..|].
  assert (B : forall l, is_bytes l = true -> 0 <= number l < 8 ^ Z.of_nat (chunk_count (length l))).
  { intros l Hl. pose proof (number_bound l Hl) as N. split; [lia|]. eapply Z.lt_le_trans; [apply N|].
    change 256 with (2 ^ 8). change 8 with (2 ^ 3) at 2. rewrite <- !Z.pow_mul_r by lia. apply Z.pow_le_mono_r; [lia|].
    unfold chunk_count. pose proof (Nat.div_mod (8 * length l + 2) 3 ltac:(lia)). pose proof (Nat.mod_upper_bound (8 * length l + 2) 3 ltac:(lia)). lia. }
  apply (octal_inj (chunk_count (length m))); [apply B; exact H|rewrite CC; apply B; exact H'|].
  intros k Hk. pose proof (Nat.div_mod k 93 ltac:(lia)) as DM. pose proof (Nat.mod_upper_bound k 93 ltac:(lia)) as MU.
  assert (k / 93 < 560)%nat as Hi by (apply Nat2Z.inj_lt; rewrite Nat2Z.inj_div; apply Z.div_lt_upper_bound; lia).
  pose proof (D (k / 93)%nat Hi) as W. unfold window_digits in W. rewrite <- CC in W.
  pose proof (map_seq_inj _ _ _ _ W (k mod 93)%nat ltac:(lia)) as V. cbn beta in V. rewrite <- DM in V.
  apply digit_inj in V; [exact V|apply chunk_range..].
Qed.

(** ** Collisions *)
Lemma combination_ext (f g : nat -> Z) l : forall Bs, (forall i, In i l -> f i = g i) -> combination (map f l) Bs = combination (map g l) Bs.
Proof. intros Bs E. f_equal. apply map_ext_in. exact E. Qed.
Lemma combination_add (f g : nat -> Z) l : forall Bs,
  combination (map (fun i => f i + g i) l) Bs = ga (combination (map f l) Bs) (combination (map g l) Bs).
Proof.
  induction l as [|i l IH]; intros [|B Bs]; cbn [map combination]; try (rewrite ga_0_l; reflexivity).
  rewrite IH, smul_add. apply ga_4.
Qed.
Lemma combination_scale (c : Z) (f : nat -> Z) l : forall Bs,
  combination (map (fun i => c * f i) l) Bs = smul c (combination (map f l) Bs).
Proof.
  induction l as [|i l IH]; intros [|B Bs]; cbn [map combination]; try (rewrite smul_gz; reflexivity).
  rewrite IH, smul_mul, <- smul_ga. reflexivity.
Qed.
Lemma combination_sub (f g : nat -> Z) l Bs :
  combination (map (fun i => f i - g i) l) Bs = ga (combination (map f l) Bs) (gn (combination (map g l) Bs)).
Proof.
  transitivity (combination (map (fun i => f i + (-1) * g i) l) Bs); [apply combination_ext; intros; lia|].
  rewrite combination_add, combination_scale. reflexivity.
Qed.
Lemma combination_zeros (l : list nat) Bs (f : nat -> Z) : (forall i, In i l -> f i = 0) -> combination (map f l) Bs = gz.
Proof.
  intros H. rewrite (combination_ext f (fun i => 0 * 0) l Bs) by (intros i Hi; rewrite (H i Hi); reflexivity).
  rewrite combination_scale. reflexivity.
Qed.
Lemma exists_or_all (f : nat -> Z) l : Exists (fun d => d <> 0) (map f l) \/ (forall i, In i l -> f i = 0).
Proof.
  induction l as [|i l [IH|IH]].
  - right. intros i [].
  - left. cbn [map]. apply Exists_cons_tl. exact IH.
  - destruct (Z.eq_dec (f i) 0) as [E|N].
    + right. intros j [<-|Hj]; [exact E|apply IH; exact Hj].
    + left. cbn [map]. apply Exists_cons_hd. exact N.
Qed.
Lemma small_coefficient m m' i : Z.abs (coefficient m i - coefficient m' i) < 2 ^ 373 /\ Z.abs (2 * (coefficient m i + coefficient m' i)) < 2 ^ 373.
Proof.
  pose proof (coefficient_bound m i) as B. pose proof (coefficient_bound m' i) as B'.
  assert (K : 16 * (16 ^ 93 - 1) < 15 * 2 ^ 373) by reflexivity. lia.
Qed.
Lemma collision Bs gens m m' out : Forall2 window_of Bs gens -> length Bs = 560%nat -> is_bytes m = true -> is_bytes m' = true ->
  m <> m' -> composite_crh gens m = Ok out -> composite_crh gens m' = Ok out -> exists ds, relation ds Bs.
Proof.
  intros F L H H' N E E'. apply (crh_output Bs gens m out F L H) in E. apply (crh_output Bs gens m' out F L H') in E'.
  destruct E as (Lm & _ & _ & V), E' as (Lm' & _ & _ & V'). assert (X : x_of (combination (coefficients m) Bs) = x_of (combination (coefficients m') Bs)).
  { apply fq_ext. rewrite <- V, <- V'. reflexivity. }
  apply ed_same_x in X. unfold coefficients in X. destruct X as [X|X].
  - exists (map (fun i => coefficient m i - coefficient m' i) (seq 0 560)). unfold relation.
    split; [rewrite map_length, seq_length; reflexivity|]. split; [|split].
    + destruct (exists_or_all (fun i => coefficient m i - coefficient m' i) (seq 0 560)) as [Y|Y]; [exact Y|].
      exfalso. apply N. apply coefficients_inj; [assumption..|]. unfold coefficients. apply map_ext_in.
      intros i Hi. specialize (Y i Hi). cbn beta in Y. lia.
    + apply Forall_forall. intros d Hd. apply in_map_iff in Hd. destruct Hd as (i & <- & _). apply small_coefficient.
    + rewrite combination_sub, X. apply gn_r.
  - exists (map (fun i => 2 * (coefficient m i + coefficient m' i)) (seq 0 560)). unfold relation.
    split; [rewrite map_length, seq_length; reflexivity|]. split; [|split].
    + destruct (exists_or_all (fun i => 2 * (coefficient m i + coefficient m' i)) (seq 0 560)) as [Y|Y]; [exact Y|].
      exfalso. apply ed_two_nz. rewrite <- X, <- combination_add. apply combination_zeros.
      intros i Hi. specialize (Y i Hi). cbn beta in Y. lia.
    + apply Forall_forall. intros d Hd. apply in_map_iff in Hd. destruct Hd as (i & <- & _). apply small_coefficient.
    + rewrite (combination_scale 2 (fun i => coefficient m i + coefficient m' i)), combination_add, X.
      change (smul 2 ed_two) with (ga ed_two ed_two). apply ed_two_double.
Qed.
(** With bases of odd order, taking the x coordinate loses nothing. *)
Lemma combination_order n ks : forall Bs, Forall (fun B => smul n B = gz) Bs -> smul n (combination ks Bs) = gz.
Proof.
  induction ks as [|k ks IH]; intros [|B Bs] F; cbn [combination]; try apply smul_gz.
  inversion F as [|? ? F0 F1]; subst. rewrite smul_ga, IH by exact F1. rewrite <- smul_mul, Z.mul_comm, smul_mul, F0, smul_gz. apply ga_0_l.
Qed.
Lemma smul_odd_two k : Z.odd k = true -> smul k ed_two = ed_two.
Proof.
  intros H. rewrite (Zodd_div2 k) by (apply Zodd_bool_iff; exact H). rewrite smul_add, smul_1.
  rewrite Z.mul_comm, smul_mul. change (smul 2 ed_two) with (ga ed_two ed_two). rewrite ed_two_double, smul_gz. apply ga_0_l.
Qed.
Lemma odd_order_x (n : Z) (P Q : ed_grp) : Z.odd n = true -> smul n P = gz -> smul n Q = gz -> x_of P = x_of Q -> P = Q.
Proof.
  intros O HP HQ X. apply ed_same_x in X. destruct X as [X|X]; [exact X|]. exfalso. apply ed_two_nz.
  rewrite <- (smul_odd_two n O), <- X, smul_ga, HP, HQ. apply ga_0_l.
Qed.
Lemma collision_odd n Bs gens m m' out : Z.odd n = true -> Forall (fun B => smul n B = gz) Bs ->
  Forall2 window_of Bs gens -> length Bs = 560%nat -> is_bytes m = true -> is_bytes m' = true ->
  composite_crh gens m = Ok out -> composite_crh gens m' = Ok out ->
  combination (coefficients m) Bs = combination (coefficients m') Bs.
Proof.
  intros O FO F L H H' E E'. apply (crh_output Bs gens m out F L H) in E. apply (crh_output Bs gens m' out F L H') in E'.
  destruct E as (_ & _ & _ & V), E' as (_ & _ & _ & V').
  apply (odd_order_x n); [exact O|apply combination_order; exact FO..|]. apply fq_ext. rewrite <- V, <- V'. reflexivity.
Qed.
