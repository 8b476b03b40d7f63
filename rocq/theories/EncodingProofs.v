From Verif Require Import Base Constants Field Curve BlsModel BatchProofs BitsModel BitsProofs EncodingModel EncodingSpec.

(** ** Lists of fixed-size pieces *)
Lemma app_inj_len {A} (a a' b b' : list A) : length a = length a' -> a ++ b = a' ++ b' -> a = a' /\ b = b'.
Proof.
  revert a'. induction a as [|x a IH]; intros [|x' a'] E H; try discriminate; [auto|].
  cbn in *. injection H as -> H. apply IH in H; [|lia]. destruct H as [-> ->]. auto.
Qed.
Lemma flat_map_len {A B} (f : A -> list B) n l : (forall x, length (f x) = n) -> length (flat_map f l) = (n * length l)%nat.
Proof. intros H. induction l as [|x l IH]; cbn [flat_map length]; [lia|]. rewrite app_length, H, IH. lia. Qed.
Lemma flat_map_inj {A B} (f : A -> list B) (P : A -> Prop) n l l' :
  (forall x, length (f x) = n) -> (forall x y, P x -> P y -> f x = f y -> x = y) ->
  Forall P l -> Forall P l' -> length l = length l' -> flat_map f l = flat_map f l' -> l = l'.
Proof.
  intros Hn Hf F. revert l'. induction F as [|x l Hx F IH]; intros [|y l'] F' E H; try discriminate; [reflexivity|].
  inversion F'; subst. cbn [flat_map] in H. apply app_inj_len in H; [|rewrite !Hn; reflexivity].
  destruct H as [Ha Hb]. f_equal; [apply Hf; assumption|]. apply IH; auto.
Qed.
Lemma flat_map_const {A B} (f : list B) (l : list A) : flat_map (fun _ => f) l = concat (repeat f (length l)).
Proof. induction l as [|x l IH]; [reflexivity|]. cbn. rewrite IH. reflexivity. Qed.
Lemma flat_map_repeat {A B} (f : A -> list B) x n : flat_map f (repeat x n) = concat (repeat (f x) n).
Proof. induction n as [|n IH]; [reflexivity|]. cbn. rewrite IH. reflexivity. Qed.

(** ** Numbers *)
Lemma bits_number_le_eq l : bits_number_le l = bits_le_val l.
Proof. induction l as [|b l IH]; [reflexivity|]. cbn [bits_le_val]. rewrite <- IH. reflexivity. Qed.
Lemma bits_number_be_eq l : bits_number_be l = from_bits_be l.
Proof.
  unfold bits_number_be, from_bits_be.
  assert (G : forall n, fold_left (fun n (b : bool) => 2 * n + (if b then 1 else 0)) l n = 2 ^ Z.of_nat (length l) * n + bits_le_val (rev l)).
  { induction l as [|b l IH]; intros n; [cbn [fold_left length rev bits_le_val]; change (2 ^ Z.of_nat 0) with 1; lia|]. cbn [fold_left length rev]. rewrite IH.
    rewrite bits_le_val_app, rev_length, Nat2Z.inj_succ, Z.pow_succ_r by lia. cbn [bits_le_val]. ring. }
  rewrite G. lia.
Qed.
Lemma bytes_number_eq l : bytes_number l = le_val l.
Proof. induction l as [|b l IH]; [reflexivity|]. cbn [le_val]. rewrite <- IH. reflexivity. Qed.

Lemma le_bytes_length n v : length (le_bytes n v) = n.
Proof. revert v. induction n as [|n IH]; intros v; cbn [le_bytes length]; [reflexivity|]. rewrite IH. reflexivity. Qed.
Lemma le_bytes_is_bytes n v : is_bytes (le_bytes n v) = true.
Proof.
  revert v. induction n as [|n IH]; intros v; [reflexivity|]. unfold is_bytes. cbn [le_bytes forallb]. apply andb_true_iff. split.
  - unfold is_byte. pose proof (Z.mod_pos_bound v 256 ltac:(lia)). apply andb_true_iff. rewrite Z.leb_le, Z.ltb_lt. lia.
  - apply IH.
Qed.
Lemma le_bytes_val n v : le_val (le_bytes n v) = v mod 256 ^ Z.of_nat n.
Proof.
  revert v. induction n as [|n IH]; intros v; cbn [le_bytes le_val].
  - cbn. symmetry. apply Z.mod_1_r.
  - rewrite IH, Nat2Z.inj_succ, Z.pow_succ_r by lia.
    rewrite Z.rem_mul_r by (try apply Z.pow_pos_nonneg; lia). lia.
Qed.

Lemma byte_bits_testbit n b : byte_bits n b = map (fun i => Z.testbit b (Z.of_nat i)) (seq 0 n).
Proof.
  revert b. induction n as [|n IH]; intros b; [reflexivity|]. cbn [byte_bits seq map]. f_equal.
  rewrite IH, <- seq_shift, map_map. apply map_ext. intros i.
  rewrite Z.shiftr_spec by lia. f_equal. lia.
Qed.
Lemma shift_land_testbit x i : 0 <= i -> (Z.shiftr (Z.land x (2 ^ i)) i =? 1) = Z.testbit x i.
Proof.
  intros Hi. rewrite Z.shiftr_land. rewrite Z.shiftr_div_pow2 with (a := 2 ^ i) by assumption.
  rewrite Z.div_same by (apply Z.pow_nonzero; lia). change 1 with (Z.ones 1) at 1. rewrite Z.land_ones by lia. change (2 ^ 1) with 2.
  rewrite <- Z.bit0_mod, Z.shiftr_spec by lia. rewrite Z.add_0_l. destruct (Z.testbit x i); reflexivity.
Qed.
Lemma bits_of_byte_eq x : bits_of_byte x = byte_bits 8 x.
Proof. unfold bits_of_byte. rewrite byte_bits_testbit. apply map_ext. intros i. apply shift_land_testbit. lia. Qed.
Lemma flat_bits_eq l : flat_map bits_of_byte l = flat_map (byte_bits 8) l.
Proof. induction l as [|x l IH]; [reflexivity|]. cbn [flat_map]. rewrite bits_of_byte_eq, IH. reflexivity. Qed.

Lemma encode_u8_length n : length (encode_u8 n) = 8%nat. Proof. reflexivity. Qed.
Lemma encode_u16_length n : length (encode_u16 n) = 16%nat. Proof. reflexivity. Qed.
Lemma encode_u32_length n : length (encode_u32 n) = 32%nat. Proof. reflexivity. Qed.
Lemma encode_u16_val n : bits_le_val (encode_u16 n) = n mod 2 ^ 16.
Proof. unfold encode_u16. rewrite flat_bits_eq, flat_bits_val by apply le_bytes_is_bytes. rewrite le_bytes_val. reflexivity. Qed.
Lemma encode_u32_val n : bits_le_val (encode_u32 n) = n mod 2 ^ 32.
Proof. unfold encode_u32. rewrite flat_bits_eq, flat_bits_val by apply le_bytes_is_bytes. rewrite le_bytes_val. reflexivity. Qed.
Lemma encode_u8_val n : 0 <= n < 2 ^ 8 -> bits_le_val (encode_u8 n) = n.
Proof.
  intros H. unfold encode_u8. rewrite flat_bits_eq, flat_bits_val; [cbn [le_val]; lia|].
  unfold is_bytes; cbn [forallb]. unfold is_byte. rewrite !andb_true_iff, Z.leb_le, Z.ltb_lt. lia.
Qed.
Lemma encode_u8_inj n m : 0 <= n < 2 ^ 8 -> 0 <= m < 2 ^ 8 -> encode_u8 n = encode_u8 m -> n = m.
Proof. intros Hn Hm H. apply (f_equal bits_le_val) in H. rewrite !encode_u8_val in H by assumption. exact H. Qed.
Lemma encode_u16_inj n m : 0 <= n < 2 ^ 16 -> 0 <= m < 2 ^ 16 -> encode_u16 n = encode_u16 m -> n = m.
Proof.
  intros Hn Hm H. apply (f_equal bits_le_val) in H. rewrite !encode_u16_val in H. rewrite !Z.mod_small in H by assumption. exact H.
Qed.
Lemma encode_u32_inj n m : 0 <= n < 2 ^ 32 -> 0 <= m < 2 ^ 32 -> encode_u32 n = encode_u32 m -> n = m.
Proof.
  intros Hn Hm H. apply (f_equal bits_le_val) in H. rewrite !encode_u32_val in H. rewrite !Z.mod_small in H by assumption. exact H.
Qed.

(** ** Public keys *)
Definition fq_bits (a : fq) : list bool := bytes_le_to_bits_be (le_bytes FQ_BYTES (fqv a)) MODULUS_BITS.
Lemma fq_bits_length a : length (fq_bits a) = 377%nat.
Proof.
  unfold fq_bits. rewrite bytes_le_to_bits_be_rev, rev_length, bytes_le_to_bits_le_length, le_bytes_length. reflexivity.
Qed.
Lemma fq_bits_val a : from_bits_be (fq_bits a) = fqv a.
Proof.
  unfold fq_bits, from_bits_be. rewrite bytes_le_to_bits_be_rev, rev_involutive.
  rewrite bytes_le_to_bits_le_val by apply le_bytes_is_bytes. rewrite le_bytes_val.
  pose proof (fqv_range a). rewrite !Z.mod_small; try reflexivity.
  - assert (p < 256 ^ Z.of_nat FQ_BYTES) by reflexivity. lia.
  - assert (p < 256 ^ Z.of_nat FQ_BYTES) by reflexivity. rewrite Z.mod_small by lia.
    assert (p < 2 ^ Z.of_nat MODULUS_BITS) by reflexivity. lia.
Qed.
Lemma fq_bits_inj a b : fq_bits a = fq_bits b -> a = b.
Proof. intros H. apply (f_equal from_bits_be) in H. rewrite !fq_bits_val in H. apply fq_ext, H. Qed.

Lemma encode_coords_eq x y : encode_coords (x, y) = fq_bits (fst x) ++ fq_bits (snd x) ++ [is_over_half y].
Proof. reflexivity. Qed.
Lemma encode_coords_length c : length (encode_coords c) = 755%nat.
Proof. destruct c as [x y]. rewrite encode_coords_eq, !app_length, !fq_bits_length. reflexivity. Qed.
Lemma encode_coords_inj x y x' y' : encode_coords (x, y) = encode_coords (x', y') -> x = x' /\ is_over_half y = is_over_half y'.
Proof.
  rewrite !encode_coords_eq. intros H. apply app_inj_len in H; [|rewrite !fq_bits_length; reflexivity].
  destruct H as [H0 H]. apply app_inj_len in H; [|rewrite !fq_bits_length; reflexivity]. destruct H as [H1 H].
  apply fq_bits_inj in H0, H1. apply (f_equal (hd false)) in H. cbn [hd] in H.
  split; [|exact H]. destruct x, x'. cbn [fst snd] in *. congruence.
Qed.

(** The sign bit of y and of -y differ unless y = 0. *)
Lemma is_over_half_opp y : y <> q2_0 -> is_over_half (q2opp y) = negb (is_over_half y).
Proof.
  intros Hy. destruct y as [y0 y1]. unfold is_over_half, q2opp. cbn [fst snd].
  unfold qopp. rewrite !fqv_of. change ((- fqv y1) mod p) with (fneg (fqv y1)). change ((- fqv y0) mod p) with (fneg (fqv y0)).
  pose proof (fqv_range y0) as R0. pose proof (fqv_range y1) as R1.
  destruct (Z.eq_dec (fqv y1) 0) as [E1|E1].
  - rewrite E1, fneg_0. assert (half <? 0 = false) as -> by reflexivity. cbn [orb andb Z.eqb].
    apply sign_neg. assert (fqv y0 <> 0); [|lia]. intros E0. apply Hy. unfold q2_0. f_equal; apply fq_ext; assumption.
  - rewrite sign_neg by lia. rewrite fneg_val by lia.
    destruct (Z.eqb_spec (fqv y1) 0); [lia|]. destruct (Z.eqb_spec (p - fqv y1) 0); [lia|].
    cbn [andb]. rewrite !orb_false_r. reflexivity.
Qed.

(** Square roots in F_p2, lifted to the field type. *)
Add Field FQ2' : fq2_field.
Lemma q2_integral x y : q2mul x y = q2_0 -> x = q2_0 \/ y = q2_0.
Proof.
  intros H. destruct (q2eqb x q2_0) eqn:E; [left; apply q2eqb_spec, E|right].
  apply (k_integral fq2 q2_0 q2_1 q2add q2mul q2sub q2opp q2div q2inv fq2_field x y H).
  intros Z. apply q2eqb_spec in Z. congruence.
Qed.
Lemma q2_sqrt_unique y y' : q2mul y y = q2mul y' y' -> y = y' \/ y = q2opp y'.
Proof.
  intros H. destruct (q2_integral (q2sub y y') (q2add y y')) as [E|E].
  - transitivity (q2sub (q2mul y y) (q2mul y' y')); [ring|]. rewrite H. ring.
  - left. transitivity (q2add (q2sub y y') y'); [ring|]. rewrite E. ring.
  - right. transitivity (q2sub (q2add y y') y'); [ring|]. rewrite E. ring.
Qed.

(** No finite point of the twist has x = 0: its y would be a square root of b, whose norm 5 b1^2 is not a square. *)
Definition sqrt_minus1 : Z :=
  216465761340224619389371505802605247630151569547285782856803747159100223055385581585702401816380679166954762214499.
Definition twist_b1 : Z :=
  155198655607781456406391640216936120121836107652948796323930557600032281009004493664981332883744016074664192874906.
Lemma five_nonresidue y : ~ eqp (y * y) 5.
Proof.
  intros [k Hk]. apply (minus5_nonresidue (y * sqrt_minus1)).
  assert (S : eqp (sqrt_minus1 * sqrt_minus1) (-1)) by (apply eqp_mod; vm_compute; reflexivity).
  destruct S as [j Hj]. exists (k * (sqrt_minus1 * sqrt_minus1) + 5 * j).
  replace (y * sqrt_minus1 * (y * sqrt_minus1) - -5)
    with ((y * y - 5) * (sqrt_minus1 * sqrt_minus1) + 5 * (sqrt_minus1 * sqrt_minus1 - -1)) by ring.
  rewrite Hk, Hj. ring.
Qed.
Lemma minus_mul_mod a b s : (a - (b mod p) * (s mod p)) mod p = (a - b * s) mod p.
Proof. rewrite Zminus_mod, <- Zmult_mod, <- Zminus_mod. reflexivity. Qed.
Lemma twist_b_nonsquare y : q2mul y y <> TWIST_B.
Proof.
  destruct y as [y0 y1]. unfold q2mul, TWIST_B, q2_of. cbn [fst snd]. fold twist_b1. intros H.
  assert (H0 := f_equal (fun c : fq2 => fqv (fst c)) H). assert (H1 := f_equal (fun c : fq2 => fqv (snd c)) H).
  cbn [fst snd] in H0, H1. clear H. set (a := fqv y0). set (c := fqv y1).
  assert (E0 : eqp (a * a - 5 * (c * c)) 0).
  { apply eqp_mod. change (0 mod p) with (fqv (fq_of 0)). rewrite <- H0. unfold qsub, qmul, five. rewrite !fqv_of.
    fold a c. rewrite Zminus_mod_idemp_l, Zminus_mod_idemp_r. symmetry. apply minus_mul_mod. }
  assert (E1 : eqp (2 * (a * c)) twist_b1).
  { apply eqp_mod. change (twist_b1 mod p) with (fqv (fq_of twist_b1)). rewrite <- H1. unfold qadd, qmul. rewrite !fqv_of.
    fold a c. rewrite Zplus_mod_idemp_l, Zplus_mod_idemp_r. f_equal. ring. }
  (* a^2 = 5 c^2, so 5 is a square unless c = 0, which would make twist_b1 = 0 *)
  assert (Hc : ~ (p | c)).
  { intros [i Hi]. destruct E1 as [j Hj]. rewrite Hi in Hj.
    assert (D : (p | twist_b1)) by (exists (2 * a * i - j); replace (j) with j by reflexivity; lia).
    apply Znumtheory.Zdivide_mod in D. vm_compute in D. discriminate. }
  destruct (Znumtheory.rel_prime_bezout p c (Znumtheory.prime_rel_prime _ prime_p _ Hc)) as [u v Huv].
  apply (five_nonresidue (a * v)). destruct E0 as [i Hi].
  exists (v * v * i - 5 * u * (1 + v * c)).
  assert (E : 1 - v * c = u * p) by (rewrite <- Huv; ring).
  transitivity (v * v * (a * a - 5 * (c * c) - 0) - 5 * ((1 - v * c) * (1 + v * c))); [ring|].
  rewrite Hi, E. ring.
Qed.

Lemma on_twist_spec x y : on_twist (Some (x, y)) = true <-> q2mul y y = q2add (q2mul x (q2mul x x)) TWIST_B.
Proof. unfold on_twist. cbn [on_curve]. apply q2eqb_spec. Qed.
Lemma x_zero_not_on_twist y : on_twist (Some (q2_0, y)) = false.
Proof.
  destruct (on_twist (Some (q2_0, y))) eqn:E; [|reflexivity]. apply on_twist_spec in E.
  exfalso. apply (twist_b_nonsquare y). rewrite E. ring.
Qed.

Lemma enc_key_length P : length (enc_key P) = 755%nat.
Proof. apply encode_coords_length. Qed.
Lemma enc_key_inj P Q : on_twist P = true -> on_twist Q = true -> enc_key P = enc_key Q -> P = Q.
Proof.
  intros HP HQ H. unfold enc_key, encode_public_key in H. destruct P as [[x y]|], Q as [[x' y']|]; cbn [g2_coords] in H.
  - apply encode_coords_inj in H. destruct H as [<- Hs]. f_equal. f_equal.
    apply on_twist_spec in HP, HQ. rewrite <- HQ in HP. apply q2_sqrt_unique in HP. destruct HP as [->| ->]; [reflexivity|].
    destruct (q2eqb y' q2_0) eqn:E.
    + apply q2eqb_spec in E. subst. unfold q2_0, q2opp. cbn [fst snd]. f_equal; ring.
    + rewrite is_over_half_opp in Hs; [destruct (is_over_half y'); discriminate|].
      intros Z. apply q2eqb_spec in Z. congruence.
  - apply encode_coords_inj in H. destruct H as [-> _]. rewrite x_zero_not_on_twist in HP. discriminate.
  - apply encode_coords_inj in H. destruct H as [<- _]. rewrite x_zero_not_on_twist in HQ. discriminate.
  - reflexivity.
Qed.
Lemma enc_key_layout x y :
  bits_number_be (firstn 377 (enc_key (Some (x, y)))) = fqv (fst x) /\
  bits_number_be (firstn 377 (skipn 377 (enc_key (Some (x, y))))) = fqv (snd x) /\
  nth_error (enc_key (Some (x, y))) 754 = Some (is_over_half y).
Proof.
  unfold enc_key, encode_public_key. cbn [g2_coords]. rewrite encode_coords_eq. rewrite !bits_number_be_eq.
  pose proof (fq_bits_length (fst x)) as L0. pose proof (fq_bits_length (snd x)) as L1. split; [|split].
  - rewrite firstn_app, L0, Nat.sub_diag, firstn_O, app_nil_r, firstn_all2 by lia. apply fq_bits_val.
  - rewrite skipn_app, L0, Nat.sub_diag, skipn_O, skipn_all2 by lia. cbn [app].
    rewrite firstn_app, L1, Nat.sub_diag, firstn_O, app_nil_r, firstn_all2 by lia. apply fq_bits_val.
  - rewrite nth_error_app2 by lia. rewrite nth_error_app2 by lia. rewrite L0, L1. reflexivity.
Qed.
Lemma enc_key_neg P : on_twist P = true -> P <> g2_neg P ->
  firstn 754 (enc_key (g2_neg P)) = firstn 754 (enc_key P) /\ enc_key (g2_neg P) <> enc_key P.
Proof.
  intros HP HN. split.
  - destruct P as [[x y]|]; [|reflexivity]. unfold enc_key, encode_public_key, g2_neg. cbn [ec_neg g2_coords].
    rewrite !encode_coords_eq, !app_assoc. rewrite !firstn_app, !app_length, !fq_bits_length. reflexivity.
  - intros E. apply HN. symmetry. apply enc_key_inj; [|assumption|assumption].
    apply (ec_neg_on fq2 q2_0 q2_1 q2add q2mul q2sub q2opp q2div q2inv q2eqb TWIST_B fq2_field q2eqb_spec), HP.
Qed.
Lemma g2_sum_on l : forallb on_twist l = true -> on_twist (g2_sum l) = true.
Proof.
  apply (ec_sum_on fq2 q2_0 q2_1 q2add q2mul q2sub q2opp q2div q2inv q2eqb TWIST_B fq2_field q2eqb_spec).
  intros H. apply (f_equal (fun c : fq2 => fqv (fst c))) in H. vm_compute in H. discriminate.
Qed.
Lemma generator_on : on_twist g2_generator = true.
Proof. vm_compute. reflexivity. Qed.

(** ** Entropies *)
Lemma encode_entropy_length e : wf_entropy e -> length (encode_entropy e) = 128%nat.
Proof.
  intros H. unfold encode_entropy. rewrite bytes_le_to_bits_le_length. destruct e as [l|].
  - destruct H as [_ H]. unfold ENTROPY_BYTES. lia.
  - rewrite repeat_length. reflexivity.
Qed.
Lemma flat_bits_firstn n l : firstn (8 * n) (flat_map (byte_bits 8) l) = flat_map (byte_bits 8) (firstn n l).
Proof.
  revert l. induction n as [|n IH]; intros l; [reflexivity|]. destruct l as [|b l]; [rewrite firstn_nil; reflexivity|].
  rewrite firstn_cons. cbn [flat_map]. rewrite <- IH, firstn_app, byte_bits_length.
  rewrite firstn_all2 by (rewrite byte_bits_length; lia). replace (8 * S n - 8)%nat with (8 * n)%nat by lia. reflexivity.
Qed.
Lemma encode_entropy_some l : encode_entropy (Some l) = flat_map (byte_bits 8) (firstn 16 l).
Proof. unfold encode_entropy. rewrite bytes_le_to_bits_le_eq. apply (flat_bits_firstn 16). Qed.
Lemma encode_entropy_none : encode_entropy None = flat_map (byte_bits 8) (repeat 0 16).
Proof. reflexivity. Qed.
Lemma encode_entropy_value e : encode_entropy e = flat_map (byte_bits 8) (entropy_value e).
Proof. destruct e; [apply encode_entropy_some|reflexivity]. Qed.
Lemma is_bytes_firstn n l : is_bytes l = true -> is_bytes (firstn n l) = true.
Proof.
  unfold is_bytes. rewrite !forallb_forall. intros H x Hx. apply H. rewrite <- (firstn_skipn n l). apply in_or_app. auto.
Qed.
Lemma entropy_value_wf e : wf_entropy e -> is_bytes (entropy_value e) = true /\ length (entropy_value e) = 16%nat.
Proof.
  destruct e as [l|]; [|split; reflexivity]. intros [H1 H2]. split; [apply is_bytes_firstn, H1|].
  cbn [entropy_value]. rewrite firstn_length. lia.
Qed.
Lemma encode_entropy_inj e e' : wf_entropy e -> wf_entropy e' -> encode_entropy e = encode_entropy e' ->
  entropy_value e = entropy_value e'.
Proof.
  intros H H' E. rewrite !encode_entropy_value in E. destruct (entropy_value_wf _ H), (entropy_value_wf _ H').
  apply (f_equal bits_le_val) in E. rewrite !flat_bits_val in E by assumption. apply le_val_inj; try assumption. congruence.
Qed.

(** ** Blocks *)
Lemma encode_keys_padded_eq b : encode_keys_padded g2_coords g2_generator b = flat_map enc_key (padded_keys b).
Proof.
  unfold encode_keys_padded, padded_keys. rewrite flat_map_app. f_equal.
  rewrite flat_map_repeat. destruct (Z.ltb_spec (Z.of_nat (length (eb_keys b))) (eb_max_validators b)) as [H|H].
  - rewrite flat_map_const, seq_length. unfold enc_key. do 2 f_equal. lia.
  - replace (Z.to_nat (eb_max_validators b) - length (eb_keys b))%nat with O by lia. reflexivity.
Qed.
Lemma padded_on b : forallb on_twist (eb_keys b) = true -> Forall (fun P => on_twist P = true) (padded_keys b).
Proof.
  intros H. unfold padded_keys. apply Forall_app. split.
  - apply Forall_forall. rewrite forallb_forall in H. exact H.
  - apply Forall_forall. intros x Hx. apply repeat_spec in Hx. subst. apply generator_on.
Qed.
Lemma keys_len l : length (flat_map enc_key l) = (755 * length l)%nat.
Proof. apply flat_map_len. apply enc_key_length. Qed.
Lemma keys_inj l l' : Forall (fun P => on_twist P = true) l -> Forall (fun P => on_twist P = true) l' ->
  flat_map enc_key l = flat_map enc_key l' -> l = l'.
Proof.
  intros H H' E. assert (length l = length l').
  { apply (f_equal (@length bool)) in E. rewrite !keys_len in E. lia. }
  apply (flat_map_inj enc_key (fun P => on_twist P = true) 755); auto. apply enc_key_length. apply enc_key_inj.
Qed.

(** Equal bytes means equal bits when the two bit lengths lie in the same residue class of key sizes. *)
Lemma ceil8_key_len a n n' : ((a + 755 * n + 7) / 8 = (a + 755 * n' + 7) / 8 -> n = n')%nat.
Proof.
  intros H.
  pose proof (Nat.div_mod (a + 755 * n + 7) 8 ltac:(lia)). pose proof (Nat.mod_upper_bound (a + 755 * n + 7) 8 ltac:(lia)).
  pose proof (Nat.div_mod (a + 755 * n' + 7) 8 ltac:(lia)). pose proof (Nat.mod_upper_bound (a + 755 * n' + 7) 8 ltac:(lia)).
  lia.
Qed.
Lemma bytes_of_bits_inj a n n' bits bits' : length bits = (a + 755 * n)%nat -> length bits' = (a + 755 * n')%nat ->
  bits_be_to_bytes_le bits = bits_be_to_bytes_le bits' -> bits = bits'.
Proof.
  intros L L' H. rewrite !bits_be_to_bytes_le_ok in H. injection H as H.
  assert (length bits = length bits').
  { pose proof (f_equal (@length Z) H) as HL. rewrite !pack_bytes_length, !rev_length, L, L' in HL.
    apply ceil8_key_len in HL. congruence. }
  apply pack_bytes_inj in H; [|rewrite !rev_length; assumption].
  rewrite <- (rev_involutive bits), H. apply rev_involutive.
Qed.
Lemma enc_total bits : exists out, bits_be_to_bytes_le bits = Ok out /\ is_bytes out = true /\
  Z.of_nat (length out) = byte_len (Z.of_nat (length bits)).
Proof.
  exists (pack_bytes (rev bits)). split; [apply bits_be_to_bytes_le_ok|]. split; [apply pack_bytes_is_bytes|].
  rewrite pack_bytes_length, rev_length. unfold byte_len. rewrite Nat2Z.inj_div. f_equal. lia.
Qed.

Lemma first_bits_len b t : wf_block b ->
  length (encode_to_bits_cip22 g2_coords g2_generator b t) = (176 + 755 * length (padded_keys b))%nat.
Proof.
  intros (_ & He & Hp & _). unfold encode_to_bits_cip22. rewrite encode_keys_padded_eq, !app_length, keys_len.
  rewrite encode_u16_length, encode_u32_length. destruct t; rewrite encode_entropy_length by assumption; lia.
Qed.
Lemma plain_bits_len b : length (encode_to_bits g2_coords b) = (48 + 755 * length (eb_keys b))%nat.
Proof. unfold encode_to_bits. fold enc_key. rewrite !app_length, keys_len. rewrite encode_u16_length, encode_u32_length. lia. Qed.
Lemma last_bits_len b : wf_block b ->
  length (encode_last_to_bits_with_agg g2_coords g2_sum g2_generator b) = (176 + 755 * S (length (padded_keys b)))%nat.
Proof.
  intros H. unfold encode_last_to_bits_with_agg. fold enc_key. rewrite app_length, first_bits_len by assumption.
  rewrite enc_key_length. lia.
Qed.

Lemma first_bits_inj b b' t : wf_block b -> wf_block b' ->
  encode_to_bits_cip22 g2_coords g2_generator b t = encode_to_bits_cip22 g2_coords g2_generator b' t ->
  eb_index b = eb_index b' /\ eb_max_non_signers b = eb_max_non_signers b' /\
  (match t with
   | First => entropy_value (eb_parent_entropy b) = entropy_value (eb_parent_entropy b')
   | Last => entropy_value (eb_epoch_entropy b) = entropy_value (eb_epoch_entropy b')
   end) /\ padded_keys b = padded_keys b'.
Proof.
  intros ((Hi & _ & Hm) & He & Hp & Hk) ((Hi' & _ & Hm') & He' & Hp' & Hk') H.
  unfold encode_to_bits_cip22 in H. rewrite !encode_keys_padded_eq in H.
  apply app_inj_len in H; [|reflexivity]. destruct H as [H1 H].
  apply app_inj_len in H; [|destruct t; rewrite !encode_entropy_length by assumption; reflexivity]. destruct H as [H2 H].
  apply app_inj_len in H; [|reflexivity]. destruct H as [H3 H].
  split; [apply encode_u16_inj; assumption|]. split; [apply encode_u32_inj; assumption|]. split.
  - destruct t; apply encode_entropy_inj; assumption.
  - apply keys_inj; try apply padded_on; assumption.
Qed.

Lemma enc_first_inj b b' : wf_block b -> wf_block b' -> enc_first b = enc_first b' ->
  eb_index b = eb_index b' /\ eb_max_non_signers b = eb_max_non_signers b' /\
  entropy_value (eb_parent_entropy b) = entropy_value (eb_parent_entropy b') /\ padded_keys b = padded_keys b'.
Proof.
  intros H H' E. unfold enc_first, encode_first_epoch_to_bytes_cip22 in E.
  eapply bytes_of_bits_inj in E; [|apply first_bits_len; assumption|apply first_bits_len; assumption].
  apply (first_bits_inj _ _ First); assumption.
Qed.
Lemma enc_last_inj b b' : wf_block b -> wf_block b' -> enc_last b = enc_last b' ->
  eb_index b = eb_index b' /\ eb_max_non_signers b = eb_max_non_signers b' /\
  entropy_value (eb_epoch_entropy b) = entropy_value (eb_epoch_entropy b') /\ padded_keys b = padded_keys b' /\
  g2_sum (eb_keys b) = g2_sum (eb_keys b').
Proof.
  intros H H' E. unfold enc_last, encode_last_epoch_to_bytes_with_aggregated_pk_cip22 in E.
  eapply bytes_of_bits_inj in E; [|apply last_bits_len; assumption|apply last_bits_len; assumption].
  assert (L : length (padded_keys b) = length (padded_keys b')).
  { apply (f_equal (@length bool)) in E. rewrite !last_bits_len in E by assumption. lia. }
  unfold encode_last_to_bits_with_agg in E. apply app_inj_len in E; [|rewrite !first_bits_len by assumption; lia].
  destruct E as [E1 E2]. apply (first_bits_inj _ _ Last) in E1; [|assumption|assumption].
  destruct E1 as (? & ? & ? & ?). repeat split; try assumption.
  destruct H as (_ & _ & _ & Hk), H' as (_ & _ & _ & Hk'). apply enc_key_inj; [| |exact E2]; apply g2_sum_on; assumption.
Qed.
Lemma enc_plain_inj b b' : wf_block b -> wf_block b' -> enc_plain b = enc_plain b' ->
  eb_index b = eb_index b' /\ eb_max_non_signers b = eb_max_non_signers b' /\ eb_keys b = eb_keys b'.
Proof.
  intros ((Hi & _ & Hm) & He & Hp & Hk) ((Hi' & _ & Hm') & He' & Hp' & Hk') E. unfold enc_plain, encode_to_bytes in E.
  eapply bytes_of_bits_inj in E; [|apply plain_bits_len|apply plain_bits_len].
  unfold encode_to_bits in E. apply app_inj_len in E; [|reflexivity]. destruct E as [E1 E].
  apply app_inj_len in E; [|reflexivity]. destruct E as [E2 E].
  split; [apply encode_u16_inj; assumption|]. split; [apply encode_u32_inj; assumption|].
  apply keys_inj; [| |exact E]; apply Forall_forall; rewrite forallb_forall in Hk, Hk'; assumption.
Qed.
Lemma enc_signed_eq b : enc_signed b =
  Ok (pack_bytes (rev (fst (encode_inner_to_bits_cip22 g2_coords g2_generator b))),
      pack_bytes (rev (snd (encode_inner_to_bits_cip22 g2_coords g2_generator b)))).
Proof.
  unfold enc_signed, encode_inner_to_bytes_cip22. destruct (encode_inner_to_bits_cip22 _ _ b) as [i e].
  rewrite !bits_be_to_bytes_le_ok. reflexivity.
Qed.
Lemma inner_bits_len b : wf_block b ->
  length (fst (encode_inner_to_bits_cip22 g2_coords g2_generator b)) = (256 + 755 * length (padded_keys b))%nat /\
  length (snd (encode_inner_to_bits_cip22 g2_coords g2_generator b)) = 56%nat.
Proof.
  intros (_ & He & Hp & _). unfold encode_inner_to_bits_cip22. cbn [fst snd]. rewrite encode_keys_padded_eq, !app_length, keys_len.
  rewrite !encode_entropy_length by assumption. split; [lia|reflexivity].
Qed.
Lemma ok_pair_inj {A B} (a c : A) (b d : B) : Ok (a, b) = Ok (c, d) -> a = c /\ b = d.
Proof. intros H. injection H as -> ->. split; reflexivity. Qed.
Lemma enc_signed_inj b b' : wf_block b -> wf_block b' -> enc_signed b = enc_signed b' ->
  eb_index b = eb_index b' /\ eb_round b = eb_round b' /\ eb_max_non_signers b = eb_max_non_signers b' /\
  entropy_value (eb_epoch_entropy b) = entropy_value (eb_epoch_entropy b') /\
  entropy_value (eb_parent_entropy b) = entropy_value (eb_parent_entropy b') /\ padded_keys b = padded_keys b'.
Proof.
  intros W W' E. rewrite !enc_signed_eq in E. apply ok_pair_inj in E. destruct E as [E1 E2].
  destruct (inner_bits_len b W) as [L1 L2], (inner_bits_len b' W') as [L1' L2'].
  apply pack_bytes_inj in E2; [|rewrite !rev_length; congruence].
  assert (E1' : bits_be_to_bytes_le (fst (encode_inner_to_bits_cip22 g2_coords g2_generator b))
              = bits_be_to_bytes_le (fst (encode_inner_to_bits_cip22 g2_coords g2_generator b')))
    by (rewrite !bits_be_to_bytes_le_ok, E1; reflexivity).
  eapply bytes_of_bits_inj in E1'; [|exact L1|exact L1']. clear E1 L1 L2 L1' L2'.
  apply (f_equal (@rev bool)) in E2. rewrite !rev_involutive in E2.
  destruct W as ((Hi & Hr & Hm) & He & Hp & Hk), W' as ((Hi' & Hr' & Hm') & He' & Hp' & Hk').
  unfold encode_inner_to_bits_cip22 in *. cbn [fst snd] in *. rewrite !encode_keys_padded_eq in E1'.
  apply app_inj_len in E1'; [|rewrite !encode_entropy_length by assumption; reflexivity]. destruct E1' as [A1 A].
  apply app_inj_len in A; [|rewrite !encode_entropy_length by assumption; reflexivity]. destruct A as [A2 A].
  apply app_inj_len in E2; [|reflexivity]. destruct E2 as [B1 B]. apply app_inj_len in B; [|reflexivity]. destruct B as [B2 B].
  split; [apply encode_u16_inj; assumption|]. split; [apply encode_u8_inj; assumption|].
  split; [apply encode_u32_inj; assumption|]. split; [apply encode_entropy_inj; assumption|].
  split; [apply encode_entropy_inj; assumption|]. apply keys_inj; try apply padded_on; assumption.
Qed.

(** Lengths *)
Lemma enc_lengths b : wf_block b ->
  (exists o, enc_first b = Ok o /\ Z.of_nat (length o) = byte_len (176 + 755 * Z.of_nat (length (padded_keys b)))) /\
  (exists o, enc_last b = Ok o /\ Z.of_nat (length o) = byte_len (931 + 755 * Z.of_nat (length (padded_keys b)))) /\
  (exists o, enc_plain b = Ok o /\ Z.of_nat (length o) = byte_len (48 + 755 * Z.of_nat (length (eb_keys b)))) /\
  (exists m e, enc_signed b = Ok (m, e) /\ Z.of_nat (length m) = byte_len (256 + 755 * Z.of_nat (length (padded_keys b))) /\
     length e = 7%nat).
Proof.
  intros W. split; [|split; [|split]].
  - destruct (enc_total (encode_to_bits_cip22 g2_coords g2_generator b First)) as (o & H & _ & L). exists o. split; [exact H|].
    rewrite L, first_bits_len by assumption. f_equal. lia.
  - destruct (enc_total (encode_last_to_bits_with_agg g2_coords g2_sum g2_generator b)) as (o & H & _ & L). exists o. split; [exact H|].
    rewrite L, last_bits_len by assumption. f_equal. lia.
  - destruct (enc_total (encode_to_bits g2_coords b)) as (o & H & _ & L). exists o. split; [exact H|].
    rewrite L, plain_bits_len by assumption. f_equal. lia.
  - rewrite enc_signed_eq. eexists _, _. split; [reflexivity|]. destruct (inner_bits_len b W) as [L1 L2].
    rewrite !pack_bytes_length, !rev_length, L1, L2. split; [|reflexivity].
    unfold byte_len. rewrite Nat2Z.inj_div. f_equal. lia.
Qed.

(** ** Identified blocks *)
Lemma entropy_none_zero b t :
  enc_first (set_entropies b None None) = enc_first (set_entropies b (Some (repeat 0 16)) (Some (repeat 0 16))) /\
  enc_last (set_entropies b None t) = enc_last (set_entropies b (Some (repeat 0 16)) t) /\
  enc_signed (set_entropies b None None) = enc_signed (set_entropies b (Some (repeat 0 16)) (Some (repeat 0 16))).
Proof. split; [|split]; reflexivity. Qed.
Lemma padded_set b : padded_keys (set_keys b (padded_keys b)) = padded_keys b.
Proof.
  unfold padded_keys at 1. cbn [set_keys eb_keys eb_max_validators].
  assert (Z.to_nat (eb_max_validators b) <= length (padded_keys b))%nat.
  { unfold padded_keys. rewrite app_length, repeat_length. lia. }
  replace (Z.to_nat (eb_max_validators b) - length (padded_keys b))%nat with O by lia. apply app_nil_r.
Qed.
Lemma padding_same b : enc_first (set_keys b (padded_keys b)) = enc_first b /\ enc_signed (set_keys b (padded_keys b)) = enc_signed b.
Proof.
  unfold enc_first, encode_first_epoch_to_bytes_cip22, encode_to_bits_cip22. split.
  - rewrite !encode_keys_padded_eq, padded_set. reflexivity.
  - rewrite !enc_signed_eq. unfold encode_inner_to_bits_cip22. cbn [fst snd]. rewrite !encode_keys_padded_eq, padded_set. reflexivity.
Qed.
Lemma wf_padded b : wf_block b -> wf_block (set_keys b (padded_keys b)).
Proof.
  intros (Hn & He & Hp & Hk). split; [exact Hn|]. split; [exact He|]. split; [exact Hp|].
  cbn [set_keys eb_keys]. apply forallb_forall. pose proof (padded_on b Hk) as F. rewrite Forall_forall in F. exact F.
Qed.
Lemma padding_last b : wf_block b ->
  (enc_last (set_keys b (padded_keys b)) = enc_last b <-> g2_sum (padded_keys b) = g2_sum (eb_keys b)).
Proof.
  intros W. split.
  - intros E. apply enc_last_inj in E; [|apply wf_padded, W|exact W]. apply E.
  - intros E. unfold enc_last, encode_last_epoch_to_bytes_with_aggregated_pk_cip22, encode_last_to_bits_with_agg, encode_to_bits_cip22.
    rewrite !encode_keys_padded_eq, padded_set. cbn [set_keys eb_keys eb_index eb_epoch_entropy eb_max_non_signers]. rewrite E. reflexivity.
Qed.

(** ** Public inputs *)
Lemma digest_bits_len d : length d = 32%nat -> length (bytes_le_to_bits_le d 256) = 256%nat.
Proof. intros H. rewrite bytes_le_to_bits_le_length, H. reflexivity. Qed.
Lemma digest_bits_inj d d' : is_bytes d = true -> is_bytes d' = true -> length d = 32%nat -> length d' = 32%nat ->
  bytes_le_to_bits_le d 256 = bytes_le_to_bits_le d' 256 -> d = d'.
Proof.
  intros B B' L L' H. apply (f_equal bits_le_val) in H. rewrite !bytes_le_to_bits_le_val in H by assumption.
  apply le_val_inj; try assumption; [congruence|].
  pose proof (le_val_bound d B). pose proof (le_val_bound d' B').
  rewrite L in *. rewrite L' in *. rewrite !Z.mod_small in H by (change (2 ^ Z.of_nat 256) with (256 ^ Z.of_nat 32); assumption).
  exact H.
Qed.
Lemma capacity_fits : 2 ^ Z.of_nat CAPACITY <= p. Proof. vm_compute. discriminate. Qed.

Definition digests_of (blake2 : bytes -> bytes) (f l : epoch_block g2_point) : option (bytes * bytes) :=
  match enc_first f, enc_last l with Ok a, Ok b => Some (blake2 a, blake2 b) | _, _ => None end.
Lemma public_inputs_eq blake2 f l : (forall x, length (blake2 x) = 32%nat) ->
  exists d1 d2, digests_of blake2 f l = Some (d1, d2) /\
    public_inputs g2_coords g2_sum g2_generator blake2 f l =
      Ok (pack p CAPACITY (bytes_le_to_bits_le d1 256 ++ bytes_le_to_bits_le d2 256)).
Proof.
  intros HB. unfold digests_of, public_inputs, hash_first_last_epoch_block, blake2_first_epoch, blake2_last_epoch.
  change (encode_first_epoch_to_bytes_cip22 g2_coords g2_generator f) with (enc_first f).
  change (encode_last_epoch_to_bytes_with_aggregated_pk_cip22 g2_coords g2_sum g2_generator l) with (enc_last l).
  assert (F : exists a, enc_first f = Ok a) by (eexists; apply bits_be_to_bytes_le_ok).
  assert (L : exists a, enc_last l = Ok a) by (eexists; apply bits_be_to_bytes_le_ok).
  destruct F as [a ->], L as [b ->]. cbn [rbind]. eexists _, _. split; reflexivity.
Qed.
Lemma two_chunks (l : list bool) : length l = 512%nat -> chunks CAPACITY l = [firstn 376 l; skipn 376 l].
Proof.
  intros H. unfold CAPACITY. rewrite chunks_cons; [|lia|intros ->; discriminate].
  rewrite chunks_cons; [|lia|]. 2:{ intros E. apply (f_equal (@length bool)) in E. rewrite skipn_length, H in E. discriminate. }
  assert (firstn 376 (skipn 376 l) = skipn 376 l) as -> by (apply firstn_all2; rewrite skipn_length; lia).
  assert (skipn 376 (skipn 376 l) = []) as -> by (apply skipn_all2; rewrite skipn_length; lia). reflexivity.
Qed.
Lemma public_inputs_value blake2 f l d1 d2 : (forall x, length (blake2 x) = 32%nat) -> digests_of blake2 f l = Some (d1, d2) ->
  let bits := bytes_le_to_bits_le d1 256 ++ bytes_le_to_bits_le d2 256 in
  public_inputs g2_coords g2_sum g2_generator blake2 f l =
    Ok (Some [bits_number_be (firstn 376 bits); bits_number_be (skipn 376 bits)]) /\
  0 <= bits_number_be (firstn 376 bits) < p /\ 0 <= bits_number_be (skipn 376 bits) < p.
Proof.
  intros HB HD bits. destruct (public_inputs_eq blake2 f l HB) as (e1 & e2 & HD' & ->). rewrite HD in HD'. injection HD' as <- <-.
  assert (L1 : length d1 = 32%nat /\ length d2 = 32%nat).
  { unfold digests_of in HD. destruct (enc_first f), (enc_last l); try discriminate. injection HD as <- <-. split; apply HB. }
  assert (LB : length bits = 512%nat) by (unfold bits; rewrite app_length, !digest_bits_len; tauto).
  fold bits. rewrite pack_ok by (apply capacity_fits || (unfold CAPACITY; lia)).
  rewrite two_chunks by assumption. cbn [map]. rewrite <- !bits_number_be_eq. split; [reflexivity|].
  rewrite !bits_number_be_eq. pose proof capacity_fits as C.
  pose proof (from_bits_be_bound (firstn 376 bits)) as B1. pose proof (from_bits_be_bound (skipn 376 bits)) as B2.
  rewrite firstn_length, LB in B1. rewrite skipn_length, LB in B2.
  change (Z.of_nat (Nat.min 376 512)) with (Z.of_nat CAPACITY) in B1.
  assert (2 ^ Z.of_nat (512 - 376) <= 2 ^ Z.of_nat CAPACITY) by (apply Z.pow_le_mono_r; unfold CAPACITY; lia). lia.
Qed.
Lemma public_inputs_inj blake2 f l f' l' d1 d2 d1' d2' :
  (forall x, length (blake2 x) = 32%nat /\ is_bytes (blake2 x) = true) ->
  digests_of blake2 f l = Some (d1, d2) -> digests_of blake2 f' l' = Some (d1', d2') ->
  public_inputs g2_coords g2_sum g2_generator blake2 f l = public_inputs g2_coords g2_sum g2_generator blake2 f' l' ->
  d1 = d1' /\ d2 = d2'.
Proof.
  intros HB D D' H.
  destruct (public_inputs_eq blake2 f l (fun x => proj1 (HB x))) as (e1 & e2 & E1 & E2).
  destruct (public_inputs_eq blake2 f' l' (fun x => proj1 (HB x))) as (e1' & e2' & E1' & E2').
  rewrite D in E1. injection E1 as <- <-. rewrite D' in E1'. injection E1' as <- <-.
  rewrite E2, E2' in H. injection H as H.
  assert (X : length d1 = 32%nat /\ is_bytes d1 = true /\ length d2 = 32%nat /\ is_bytes d2 = true).
  { unfold digests_of in D. destruct (enc_first f), (enc_last l); try discriminate. injection D as <- <-. split; [|split; [|split]]; apply HB. }
  assert (X' : length d1' = 32%nat /\ is_bytes d1' = true /\ length d2' = 32%nat /\ is_bytes d2' = true).
  { unfold digests_of in D'. destruct (enc_first f'), (enc_last l'); try discriminate. injection D' as <- <-. split; [|split; [|split]]; apply HB. }
  destruct X as (A1 & A2 & A3 & A4), X' as (B1 & B2 & B3 & B4).
  apply pack_inj in H; [|unfold CAPACITY; lia|apply capacity_fits|rewrite !app_length, !digest_bits_len by assumption; reflexivity].
  apply app_inj_len in H; [|rewrite !digest_bits_len by assumption; reflexivity]. destruct H as [H1 H2].
  split; apply digest_bits_inj; assumption.
Qed.

(** Entropies shorter than 16 bytes are not padded, so the boundary between them is lost. *)
Lemma encode_entropy_short l : (length l <= 16)%nat -> encode_entropy (Some l) = flat_map (byte_bits 8) l.
Proof. intros H. rewrite encode_entropy_some, firstn_all2 by assumption. reflexivity. Qed.
Lemma short_entropy b x y z : (length (x ++ y) <= 16)%nat -> (length (y ++ z) <= 16)%nat ->
  enc_signed (set_entropies b (Some (x ++ y)) (Some z)) = enc_signed (set_entropies b (Some x) (Some (y ++ z))).
Proof.
  intros H1 H2. rewrite !enc_signed_eq. unfold encode_inner_to_bits_cip22. cbn [fst snd set_entropies eb_epoch_entropy eb_parent_entropy].
  rewrite app_length in *. rewrite !encode_entropy_short by (rewrite ?app_length; lia).
  rewrite !flat_map_app, !app_assoc. reflexivity.
Qed.

(** ** Layout *)
Lemma bits_up_length n v : length (bits_up n v) = n.
Proof. unfold bits_up. rewrite map_length, seq_length. reflexivity. Qed.
Lemma bits_up_val n v : bits_le_val (bits_up n v) = v mod 2 ^ Z.of_nat n.
Proof.
  unfold bits_up. rewrite <- byte_bits_testbit. revert v. induction n as [|n IH]; intros v; [symmetry; apply Z.mod_1_r|].
  cbn [byte_bits bits_le_val]. rewrite IH, Z.shiftr_div_pow2, Nat2Z.inj_succ, Z.pow_succ_r by lia. change (2 ^ 1) with 2.
  rewrite Z.rem_mul_r by lia. rewrite Zmod_odd. destruct (Z.odd v); lia.
Qed.
Lemma bits_up_intro l n v : length l = n -> bits_le_val l = v mod 2 ^ Z.of_nat n -> l = bits_up n v.
Proof. intros L V. apply bits_le_val_inj; [rewrite bits_up_length; exact L|rewrite bits_up_val; exact V]. Qed.
Lemma encode_u16_layout n : encode_u16 n = bits_up 16 n. Proof. apply bits_up_intro; [reflexivity|apply encode_u16_val]. Qed.
Lemma encode_u32_layout n : encode_u32 n = bits_up 32 n. Proof. apply bits_up_intro; [reflexivity|apply encode_u32_val]. Qed.
Lemma encode_u8_layout n : encode_u8 n = bits_up 8 n.
Proof. unfold encode_u8. cbn [flat_map]. rewrite app_nil_r, bits_of_byte_eq, byte_bits_testbit. reflexivity. Qed.
Lemma entropy_layout_eq e : wf_entropy e -> encode_entropy e = entropy_layout e.
Proof.
  intros W. destruct (entropy_value_wf e W) as [B L]. apply bits_up_intro; [apply encode_entropy_length, W|].
  rewrite encode_entropy_value, (flat_bits_val _ B). symmetry. rewrite Z.mod_small; [apply bytes_number_eq|]. pose proof (bytes_number_eq (entropy_value e)) as N. set (v := bytes_number _) in *. rewrite N.
  pose proof (le_val_bound _ B) as H. rewrite L in H. exact H.
Qed.
Lemma fq_bits_layout a : fq_bits a = bits_down 377 (fqv a).
Proof.
  unfold bits_down. transitivity (rev (rev (fq_bits a))); [symmetry; apply rev_involutive|]. apply (f_equal (@rev bool)). apply bits_up_intro; [rewrite rev_length; apply fq_bits_length|].
  change (bits_le_val (rev (fq_bits a))) with (from_bits_be (fq_bits a)). rewrite fq_bits_val. symmetry. apply Z.mod_small.
  pose proof (fqv_range a). assert (p < 2 ^ Z.of_nat 377) by reflexivity. lia.
Qed.
Lemma y_larger_eq y : is_over_half y = y_larger y.
Proof.
  unfold is_over_half, y_larger. assert (H : forall v, (half <? v) = (p <? 2 * v)).
  { intros v. assert (E : p = 2 * half + 1) by reflexivity. destruct (Z.ltb_spec half v), (Z.ltb_spec p (2 * v)); try reflexivity; lia. }
  rewrite !H. destruct (fqv (snd y) =? 0) eqn:E; [|rewrite andb_false_l, orb_false_r; reflexivity].
  apply Z.eqb_eq in E. rewrite E. cbn [andb]. assert (p <? 2 * 0 = false) as -> by reflexivity. reflexivity.
Qed.
Lemma key_layout_eq P : enc_key P = key_layout P.
Proof.
  destruct P as [[x y]|]; unfold enc_key, encode_public_key, g2_coords; rewrite ?encode_coords_eq.
  - rewrite !fq_bits_layout, y_larger_eq. reflexivity.
  - unfold infinity_coords. rewrite encode_coords_eq, !fq_bits_layout, y_larger_eq. reflexivity.
Qed.
Lemma keys_layout l : flat_map enc_key l = flat_map key_layout l.
Proof. apply flat_map_ext, key_layout_eq. Qed.
Lemma written_intro bits : written bits (pack_bytes (rev bits)).
Proof.
  split; [apply pack_bytes_is_bytes|]. split; [rewrite pack_bytes_length, rev_length; reflexivity|].
  rewrite bytes_number_eq, pack_bytes_val, bits_number_be_eq. reflexivity.
Qed.
Lemma layouts b : wf_block b ->
  (exists o, enc_first b = Ok o /\ written (first_layout b) o) /\ (exists o, enc_last b = Ok o /\ written (last_layout b) o) /\
  (exists o, enc_plain b = Ok o /\ written (plain_layout b) o) /\
  (exists m x, enc_signed b = Ok (m, x) /\ written (signed_layout b) m /\ written (extra_layout b) x).
Proof.
  intros (_ & He & Hp & _). split; [|split; [|split]].
  - eexists. split; [apply bits_be_to_bytes_le_ok|]. replace (encode_to_bits_cip22 g2_coords g2_generator b First) with (first_layout b); [apply written_intro|].
    unfold first_layout, encode_to_bits_cip22. rewrite encode_keys_padded_eq, encode_u16_layout, encode_u32_layout, keys_layout, (entropy_layout_eq _ Hp). reflexivity.
  - eexists. split; [apply bits_be_to_bytes_le_ok|]. replace (encode_last_to_bits_with_agg g2_coords g2_sum g2_generator b) with (last_layout b); [apply written_intro|].
    unfold last_layout, encode_last_to_bits_with_agg, encode_to_bits_cip22. fold enc_key. rewrite encode_keys_padded_eq, encode_u16_layout, encode_u32_layout, keys_layout, (entropy_layout_eq _ He), key_layout_eq, <- !app_assoc. reflexivity.
  - eexists. split; [apply bits_be_to_bytes_le_ok|]. replace (encode_to_bits g2_coords b) with (plain_layout b); [apply written_intro|].
    unfold plain_layout, encode_to_bits. fold enc_key. rewrite encode_u16_layout, encode_u32_layout, keys_layout. reflexivity.
  - eexists _, _. split; [apply enc_signed_eq|]. unfold encode_inner_to_bits_cip22. cbn [fst snd].
    rewrite encode_keys_padded_eq, encode_u16_layout, encode_u32_layout, encode_u8_layout, keys_layout, (entropy_layout_eq _ Hp), (entropy_layout_eq _ He).
    split; apply written_intro.
Qed.
Lemma written_unique bits o o' : written bits o -> written bits o' -> o = o'.
Proof.
  intros (B & L & V) (B' & L' & V'). apply le_val_inj; try assumption; [congruence|]. rewrite <- (bytes_number_eq o). transitivity (bytes_number o'); [congruence|apply bytes_number_eq].
Qed.
