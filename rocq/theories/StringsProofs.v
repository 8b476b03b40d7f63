(** Proofs for C87: how many byte strings are read as keys and signatures. *)
From Coq Require Import FinFun.
From Verif Require Import Base Constants Group Field Curve EncodingModel PointModel PointProofs EncodingProofs HashCurveSpec CodecModel CodecSpec CodecProofs PropCodec
  CurveGroups OrderSpec OrderProofs TwistSpec TwistProofs RealProofs StringsSpec.

Definition zrange (n : Z) : list Z := map Z.of_nat (seq 0 (Z.to_nat n)).
Lemma zrange_in n x : In x (zrange n) <-> 0 <= x < n.
Proof.
  unfold zrange. rewrite in_map_iff. split.
  - intros (k & <- & I). apply in_seq in I. lia.
  - intros B. exists (Z.to_nat x). split; [lia|]. apply in_seq. lia.
Qed.
Lemma zrange_nodup n : NoDup (zrange n).
Proof. apply Injective_map_NoDup; [intros a b; lia|apply seq_NoDup]. Qed.
Lemma zrange_length n : 0 <= n -> Z.of_nat (length (zrange n)) = n.
Proof. intros H. unfold zrange. rewrite map_length, seq_length. lia. Qed.
Lemma nodup_map_in {A B} (f : A -> B) l : (forall a b, In a l -> In b l -> f a = f b -> a = b) -> NoDup l -> NoDup (map f l).
Proof.
  intros I N. induction N as [|a l H N IH]; cbn [map]; constructor.
  - intros K. apply in_map_iff in K as (b & E & K). apply H. rewrite (I a b); [exact K|left; reflexivity|right; exact K|congruence].
  - apply IH. intros x y X Y. apply I; right; assumption.
Qed.
Lemma counted_map {A B} (f : A -> B) (l : list A) (Q : B -> Prop) n : NoDup l -> (forall a b, In a l -> In b l -> f a = f b -> a = b) ->
  (forall b, Q b <-> exists a, f a = b /\ In a l) -> Z.of_nat (length l) = n -> counted Q n.
Proof.
  intros N I E L. exists (map f l). split; [exact (nodup_map_in f l I N)|]. split; [|rewrite map_length; exact L]. intros b. rewrite in_map_iff, E. reflexivity.
Qed.
Lemma counted_or {A} (Q R : A -> Prop) n m : (forall a, Q a -> R a -> False) -> counted Q n -> counted R m -> counted (fun a => Q a \/ R a) (n + m).
Proof.
  intros D (L & N & I & E) (L' & N' & I' & E'). exists (L ++ L'). split; [|split].
  - clear E E'. assert (X : forall a, In a L -> In a L' -> False) by (intros a Ha Hb; apply (D a); [apply I, Ha|apply I', Hb]). clear I. induction N as [|a L H N IH]; cbn; [exact N'|].
    constructor; [|apply IH; intros b B; apply X; right; exact B]. intros K. apply in_app_iff in K as [K|K]; [exact (H K)|]. apply (X a); [left; reflexivity|exact K].
  - intros a. rewrite in_app_iff, I, I'. reflexivity.
  - rewrite app_length. lia.
Qed.
Lemma counted_ext {A} (Q R : A -> Prop) n : (forall a, Q a <-> R a) -> counted Q n -> counted R n.
Proof. intros E (L & N & I & H). exists L. split; [exact N|]. split; [|exact H]. intros a. rewrite I. apply E. Qed.

Lemma le_bytes_size n v : length (le_bytes n v) = n.
Proof. apply le_bytes_length. Qed.
(** Strings of n bytes whose number is in a set of numbers. *)
Lemma counted_numbers n (I : list Z) m : NoDup I -> (forall v, In v I -> 0 <= v < 256 ^ Z.of_nat n) -> Z.of_nat (length I) = m ->
  counted (fun l => (length l = n /\ is_bytes l = true) /\ In (number l) I) m.
Proof.
  intros N B L. apply (counted_map (le_bytes n) I); [exact N| | |exact L].
  - intros a b A A' E. apply (f_equal number) in E. rewrite !number_le_bytes, !Z.mod_small in E by (apply B; assumption). exact E.
  - intros l. split.
    + intros ((E & Hl) & K). exists (number l). split; [|exact K]. rewrite <- E. apply le_bytes_number, Hl.
    + intros (v & <- & K). split; [split; [apply le_bytes_size|apply le_bytes_is_bytes]|]. rewrite number_le_bytes, Z.mod_small by (apply B, K). exact K.
Qed.

(** A reader of points: one string for each multiple of the generator but zero, and the strings of infinity. *)
Section Reader.
  Context {Pt : Type} (n : nat) (dec : bytes -> result (option Pt)) (ser : option Pt -> bytes) (mult : Z -> option Pt) (R : Z) (I : list Z) (m : Z).
  Let S0 (l : bytes) : Prop := length l = n /\ is_bytes l = true.
  Context (R1 : 1 <= R) (H0 : mult 0 = None)
    (Hinj : forall k k', 0 <= k < R -> 0 <= k' < R -> mult k = mult k' -> k = k')
    (Hser : forall k, 0 < k < R -> S0 (ser (mult k)) /\ dec (ser (mult k)) = Ok (mult k))
    (Hcan : forall l k, 0 < k < R -> S0 l -> dec l = Ok (mult k) -> l = ser (mult k))
    (Hacc : forall l P, S0 l -> dec l = Ok P -> exists k, 0 <= k < R /\ P = mult k)
    (HI : forall l, S0 l -> (dec l = Ok None <-> In (number l) I))
    (NI : NoDup I) (BI : forall v, In v I -> 0 <= v < 256 ^ Z.of_nat n) (LI : Z.of_nat (length I) = m).
  Lemma infinity_strings : counted (fun l => (length l = n /\ is_bytes l = true) /\ dec l = Ok None) m.
  Proof.
    apply (counted_ext (fun l => (length l = n /\ is_bytes l = true) /\ In (number l) I)); [|exact (counted_numbers n I m NI BI LI)].
    intros l. split; intros (S1 & K); (split; [exact S1|]); apply (HI l S1); exact K.
  Qed.
  Lemma mult_some k : 0 < k < R -> mult k <> None.
  Proof. intros B E. assert (k = 0); [|lia]. apply Hinj; [lia|lia|]. rewrite H0. exact E. Qed.
  Lemma point_strings : counted (fun l => (length l = n /\ is_bytes l = true) /\ exists Q, dec l = Ok (Some Q)) (R - 1).
  Proof.
    apply (counted_map (fun j => ser (mult (j + 1))) (zrange (R - 1))); [apply zrange_nodup| | |apply zrange_length; lia].
    - intros a b A B E. apply zrange_in in A. apply zrange_in in B. destruct (Hser (a + 1)) as (_ & D); [lia|]. destruct (Hser (b + 1)) as (_ & D'); [lia|].
      rewrite E, D' in D. assert (X : mult (b + 1) = mult (a + 1)) by congruence. apply Hinj in X; lia.
    - intros l. split.
      + intros (S1 & Q & D). destruct (Hacc l _ S1 D) as (k & B & E). assert (k <> 0) by (intros ->; rewrite H0 in E; discriminate E).
        exists (k - 1). replace (k - 1 + 1) with k by lia. split; [|apply zrange_in; lia]. symmetry. apply Hcan; [lia|exact S1|]. rewrite <- E. exact D.
      + intros (j & <- & K). apply zrange_in in K. destruct (Hser (j + 1)) as (S1 & D); [lia|]. split; [exact S1|].
        destruct (mult (j + 1)) as [Q|] eqn:E; [|exfalso; apply (mult_some (j + 1)); [lia|exact E]]. exists Q. exact D.
  Qed.
  Lemma all_strings : counted (fun l => (length l = n /\ is_bytes l = true) /\ exists P, dec l = Ok P) (R - 1 + m).
  Proof.
    eapply counted_ext; [|apply counted_or; [|exact point_strings|exact infinity_strings]].
    - intros l. cbn beta. split.
      + intros [(S1 & Q & D)|(S1 & D)]; (split; [exact S1|]); eexists; exact D.
      + intros (S1 & [Q|] & D); [left|right]; (split; [exact S1|]); [exists Q|]; exact D.
    - intros l (_ & Q & D) (_ & D'). rewrite D in D'. discriminate D'.
  Qed.
  Lemma one_string k : 0 < k < R -> exists l, ((length l = n /\ is_bytes l = true) /\ dec l = Ok (mult k)) /\ forall l', length l' = n -> is_bytes l' = true -> dec l' = Ok (mult k) -> l' = l.
  Proof. intros B. exists (ser (mult k)). split; [apply Hser, B|]. intros l' E Hl D. apply Hcan; [exact B|split; assumption|exact D]. Qed.
End Reader.

(** ** The numbers of infinity *)
Definition infinite1 (q a : Z) : list Z := map (fun x => x + a) (zrange q).
Definition infinite2 (q s a : Z) : list Z := map (fun v => v mod q + s * (v / q) + a) (zrange (q * q)).
Lemma infinite1_in q a v : In v (infinite1 q a) <-> exists x, 0 <= x < q /\ v = x + a.
Proof.
  unfold infinite1. rewrite in_map_iff. split; intros (x & A & B); exists x; [apply zrange_in in B|apply zrange_in in A]; (split; [|]); try assumption; symmetry; assumption.
Qed.
Lemma infinite1_nodup q a : NoDup (infinite1 q a).
Proof. apply Injective_map_NoDup; [intros x y; lia|apply zrange_nodup]. Qed.
Lemma infinite1_length q a : 0 <= q -> Z.of_nat (length (infinite1 q a)) = q.
Proof. intros H. unfold infinite1. rewrite map_length. apply zrange_length, H. Qed.
Lemma infinite2_in q s a v : 0 < q -> In v (infinite2 q s a) <-> exists x0 x1, 0 <= x0 < q /\ 0 <= x1 < q /\ v = x0 + s * x1 + a.
Proof.
  intros Q. unfold infinite2. rewrite in_map_iff. split.
  - intros (w & <- & B). apply zrange_in in B. exists (w mod q), (w / q). split; [apply Z.mod_pos_bound, Q|]. split; [|reflexivity].
    split; [apply Z.div_pos; lia|apply Z.div_lt_upper_bound; lia].
  - intros (x0 & x1 & B0 & B1 & ->). exists (x0 + x1 * q). rewrite Z_mod_plus_full, Z.mod_small, Z_div_plus_full, Z.div_small, Z.add_0_l by lia.
    split; [reflexivity|]. apply zrange_in. nia.
Qed.
Lemma infinite2_nodup q s a : 0 < q -> q <= s -> NoDup (infinite2 q s a).
Proof.
  intros Q S0. apply nodup_map_in; [|apply zrange_nodup]. intros v w V W E. apply zrange_in in V. apply zrange_in in W.
  pose proof (Z.mod_pos_bound v q Q) as M. pose proof (Z.mod_pos_bound w q Q) as M'.
  assert (D : v / q = w / q).
  { apply (f_equal (fun t => (t - a) / s)) in E. replace (v mod q + s * (v / q) + a - a) with (v mod q + (v / q) * s) in E by ring.
    replace (w mod q + s * (w / q) + a - a) with (w mod q + (w / q) * s) in E by ring. rewrite !Z_div_plus_full in E by lia. rewrite (Z.div_small (v mod q)), (Z.div_small (w mod q)), !Z.add_0_l in E by lia. exact E. }
  rewrite D in E. rewrite (Z.div_mod v q), (Z.div_mod w q) by lia. rewrite D. f_equal. lia.
Qed.
Lemma infinite2_length q s a : 0 <= q -> Z.of_nat (length (infinite2 q s a)) = q * q.
Proof. intros H. unfold infinite2. rewrite map_length. apply zrange_length. nia. Qed.
Lemma bound1 q a u v : 0 <= a -> q + a <= u -> In v (infinite1 q a) -> 0 <= v < u.
Proof. intros A B K. apply infinite1_in in K as (x & X & ->). lia. Qed.
Lemma bound2 q s a u v : 0 < q -> 0 <= a -> 0 <= s -> q + s * q + a <= u -> In v (infinite2 q s a) -> 0 <= v < u.
Proof. intros Q A S0 B K. apply infinite2_in in K as (x0 & x1 & X0 & X1 & ->); [|exact Q]. nia. Qed.

Lemma zb a b : (a <=? b) = true -> a <= b. Proof. apply Z.leb_le. Qed.
Lemma zlt a b : (a <? b) = true -> a < b. Proof. apply Z.ltb_lt. Qed.
Lemma p_pos : 0 < p. Proof. apply zlt. vm_cast_no_check (eq_refl true). Qed.
Lemma r_ge : 1 <= r. Proof. apply zb. vm_cast_no_check (eq_refl true). Qed.
Lemma fits1 : p + 2 ^ 382 <= 256 ^ Z.of_nat 48. Proof. apply zb. vm_cast_no_check (eq_refl true). Qed.
Lemma fits2 : p + 2 ^ 384 * p + 2 ^ 766 <= 256 ^ Z.of_nat 96. Proof. apply zb. vm_cast_no_check (eq_refl true). Qed.
Lemma p_384 : p <= 2 ^ 384. Proof. apply zb. vm_cast_no_check (eq_refl true). Qed.
Lemma r_fits : r <= 256 ^ Z.of_nat 32. Proof. apply zb. vm_cast_no_check (eq_refl true). Qed.
Lemma pow_pos k : 0 <= k -> 0 <= 2 ^ k. Proof. intros H. apply Z.pow_nonneg. lia. Qed.

Lemma sig_bytes P : is_bytes (signature_serialize P) = true.
Proof. destruct P as [[X Y]|]; unfold signature_serialize, affine_serialize; apply fq_write_is_bytes. Qed.
Lemma pk_bytes P : is_bytes (public_key_serialize P) = true.
Proof. destruct P as [[X Y]|]; unfold public_key_serialize, affine_serialize; apply fq2_write_is_bytes. Qed.

Lemma whole {A} (l : list A) n : length l = n -> firstn n l = l.
Proof. intros <-. apply firstn_all. Qed.
Lemma private_strings : counted (fun l => (length l = 32%nat /\ is_bytes l = true) /\ exists sk, private_key_deserialize l = Ok sk) r.
Proof.
  eapply counted_ext; [|exact (counted_numbers 32 (zrange r) r (zrange_nodup r) (fun v K => conj (proj1 (proj1 (zrange_in r v) K)) (Z.lt_le_trans _ _ _ (proj2 (proj1 (zrange_in r v) K)) r_fits))
    (zrange_length r (Z.le_trans _ _ _ Z.le_0_1 r_ge)))].
  intros l. cbn beta. split.
  - intros ((E & Hl) & K). split; [split; assumption|]. exists (number l). apply (private_number l _ Hl). rewrite (whole l 32 E), E. split; [lia|]. split; [reflexivity|]. apply zrange_in in K. apply K.
  - intros ((E & Hl) & sk & D). split; [split; assumption|]. apply (private_number l _ Hl) in D. rewrite (whole l 32 E) in D. destruct D as (_ & D & B). apply zrange_in.
    split; [apply (number_bound l Hl)|rewrite <- D; exact B].
Qed.

Section Signatures.
  Context (sqrt : fq -> option fq) (Hs : sqrt_spec qmul sqrt).
  Lemma sig_read l P : length l = 48%nat /\ is_bytes l = true -> signature_deserialize sqrt g1_test l = Ok P <-> wire_g1 (number l) P /\ in_g1 P.
  Proof. intros (E & Hl). rewrite (signature_in_g1 sqrt l P Hs Hl), (whole l 48 E), E. split; [intros (_ & K); exact K|intros K; split; [lia|exact K]]. Qed.
  Lemma mult1_in k : 0 < k < r -> in_g1 (g1_times k g1_generator).
  Proof. intros B. exists k. split; [lia|reflexivity]. Qed.
  Lemma sig_H0 : g1_times 0 g1_generator = None. Proof. reflexivity. Qed.
  Lemma sig_Hser k : 0 < k < r -> (length (signature_serialize (g1_times k g1_generator)) = 48%nat /\ is_bytes (signature_serialize (g1_times k g1_generator)) = true) /\
    signature_deserialize sqrt g1_test (signature_serialize (g1_times k g1_generator)) = Ok (g1_times k g1_generator).
  Proof.
    intros B. pose proof (mult1_in k B) as I. generalize dependent (g1_times k g1_generator). intros P I. split; [split; [apply C30_sizes|apply sig_bytes]|].
    pose proof (sig_roundtrip sqrt Hs g1_test P [] eq_refl) as K. rewrite app_nil_r in K. apply K. intros Q ->. apply wire_eq1, I.
  Qed.
  Lemma sig_Hcan l k : 0 < k < r -> length l = 48%nat /\ is_bytes l = true -> signature_deserialize sqrt g1_test l = Ok (g1_times k g1_generator) ->
    l = signature_serialize (g1_times k g1_generator).
  Proof.
    intros B (E & Hl) D. assert (N : g1_times k g1_generator <> None).
    { intros K. assert (k = 0); [|lia]. apply g1_unique; [lia|pose proof r_ge; lia|rewrite K; reflexivity]. }
    pose proof (mult1_in k B) as I. generalize dependent (g1_times k g1_generator). intros [Q|] D N I; [|congruence].
    rewrite <- (whole l 48 E) at 1. apply (sig_canonical sqrt Hs g1_test l Q Hl D). apply odd_1, I.
  Qed.
  Lemma sig_Hacc l P : length l = 48%nat /\ is_bytes l = true -> signature_deserialize sqrt g1_test l = Ok P -> exists k, 0 <= k < r /\ P = g1_times k g1_generator.
  Proof. intros S1 D. apply (sig_read l P S1) in D as (_ & I). exact I. Qed.
  Lemma sig_HI l : length l = 48%nat /\ is_bytes l = true -> (signature_deserialize sqrt g1_test l = Ok None <-> In (number l) (infinite1 p (2 ^ 382))).
  Proof.
    intros S1. rewrite (sig_read l None S1), infinite1_in. split; [intros (K & _); exact K|intros K; split; [exact K|exact zero_in_g1]].
  Qed.
  Definition sig_BI v : In v (infinite1 p (2 ^ 382)) -> 0 <= v < 256 ^ Z.of_nat 48 := bound1 p (2 ^ 382) (256 ^ Z.of_nat 48) v (pow_pos 382 ltac:(discriminate)) fits1.
  Lemma signature_strings : counted (fun l => (length l = 48%nat /\ is_bytes l = true) /\ exists P, signature_deserialize sqrt g1_test l = Ok P) (r - 1 + p).
  Proof.
    exact (all_strings 48 (signature_deserialize sqrt g1_test) signature_serialize (fun k => g1_times k g1_generator) r (infinite1 p (2 ^ 382)) p
      r_ge sig_H0 g1_unique sig_Hser sig_Hcan sig_Hacc sig_HI (infinite1_nodup p _) sig_BI (infinite1_length p _ (Z.lt_le_incl _ _ p_pos))).
  Qed.
  Lemma signature_infinity : counted (fun l => (length l = 48%nat /\ is_bytes l = true) /\ signature_deserialize sqrt g1_test l = Ok None) p.
  Proof.
    exact (infinity_strings 48 (signature_deserialize sqrt g1_test) (infinite1 p (2 ^ 382)) p sig_HI (infinite1_nodup p _) sig_BI (infinite1_length p _ (Z.lt_le_incl _ _ p_pos))).
  Qed.
  Lemma signature_string k : 0 < k < r -> exists l, ((length l = 48%nat /\ is_bytes l = true) /\ signature_deserialize sqrt g1_test l = Ok (g1_times k g1_generator)) /\
    forall l', length l' = 48%nat -> is_bytes l' = true -> signature_deserialize sqrt g1_test l' = Ok (g1_times k g1_generator) -> l' = l.
  Proof. exact (one_string 48 (signature_deserialize sqrt g1_test) signature_serialize (fun k => g1_times k g1_generator) r sig_Hser sig_Hcan k). Qed.
End Signatures.

Section Keys.
  Context (sqrt : fq2 -> option fq2) (Hs : sqrt_spec q2mul sqrt).
  Lemma pk_read l P : length l = 96%nat /\ is_bytes l = true -> public_key_deserialize sqrt g2_test l = Ok P <-> wire_g2 (number l) P /\ in_g2 P.
  Proof. intros (E & Hl). rewrite (key_in_g2 sqrt l P Hs Hl), (whole l 96 E), E. split; [intros (_ & K); exact K|intros K; split; [lia|exact K]]. Qed.
  Lemma mult2_in k : 0 < k < r -> in_g2 (g2_times k g2_generator).
  Proof. intros B. exists k. split; [lia|reflexivity]. Qed.
  Lemma pk_H0 : g2_times 0 g2_generator = None. Proof. reflexivity. Qed.
  Lemma pk_Hser k : 0 < k < r -> (length (public_key_serialize (g2_times k g2_generator)) = 96%nat /\ is_bytes (public_key_serialize (g2_times k g2_generator)) = true) /\
    public_key_deserialize sqrt g2_test (public_key_serialize (g2_times k g2_generator)) = Ok (g2_times k g2_generator).
  Proof.
    intros B. pose proof (mult2_in k B) as I. generalize dependent (g2_times k g2_generator). intros P I. split; [split; [apply C30_sizes|apply pk_bytes]|].
    pose proof (pk_roundtrip sqrt Hs g2_test P [] eq_refl) as K. rewrite app_nil_r in K. apply K. intros Q ->. apply wire_eq2, I.
  Qed.
  Lemma pk_Hcan l k : 0 < k < r -> length l = 96%nat /\ is_bytes l = true -> public_key_deserialize sqrt g2_test l = Ok (g2_times k g2_generator) ->
    l = public_key_serialize (g2_times k g2_generator).
  Proof.
    intros B (E & Hl) D. assert (N : g2_times k g2_generator <> None).
    { intros K. assert (k = 0); [|lia]. apply g2_unique; [lia|pose proof r_ge; lia|rewrite K; reflexivity]. }
    pose proof (mult2_in k B) as I. generalize dependent (g2_times k g2_generator). intros [Q|] D N I; [|congruence].
    rewrite <- (whole l 96 E) at 1. apply (pk_canonical sqrt Hs g2_test l Q Hl D). apply odd_2, I.
  Qed.
  Lemma pk_Hacc l P : length l = 96%nat /\ is_bytes l = true -> public_key_deserialize sqrt g2_test l = Ok P -> exists k, 0 <= k < r /\ P = g2_times k g2_generator.
  Proof. intros S1 D. apply (pk_read l P S1) in D as (_ & I). exact I. Qed.
  Lemma pk_HI l : length l = 96%nat /\ is_bytes l = true -> (public_key_deserialize sqrt g2_test l = Ok None <-> In (number l) (infinite2 p (2 ^ 384) (2 ^ 766))).
  Proof.
    intros S1. rewrite (pk_read l None S1), (infinite2_in _ _ _ _ p_pos). split; [intros (K & _); exact K|intros K; split; [exact K|exact zero_in_g2]].
  Qed.
  Definition pk_BI v : In v (infinite2 p (2 ^ 384) (2 ^ 766)) -> 0 <= v < 256 ^ Z.of_nat 96 := bound2 p (2 ^ 384) (2 ^ 766) (256 ^ Z.of_nat 96) v p_pos (pow_pos 766 ltac:(discriminate)) (pow_pos 384 ltac:(discriminate)) fits2.
  Lemma key_strings : counted (fun l => (length l = 96%nat /\ is_bytes l = true) /\ exists P, public_key_deserialize sqrt g2_test l = Ok P) (r - 1 + p * p).
  Proof.
    exact (all_strings 96 (public_key_deserialize sqrt g2_test) public_key_serialize (fun k => g2_times k g2_generator) r (infinite2 p (2 ^ 384) (2 ^ 766)) (p * p)
      r_ge pk_H0 g2_unique pk_Hser pk_Hcan pk_Hacc pk_HI (infinite2_nodup p _ _ p_pos p_384) pk_BI (infinite2_length p _ _ (Z.lt_le_incl _ _ p_pos))).
  Qed.
  Lemma key_infinity : counted (fun l => (length l = 96%nat /\ is_bytes l = true) /\ public_key_deserialize sqrt g2_test l = Ok None) (p * p).
  Proof.
    exact (infinity_strings 96 (public_key_deserialize sqrt g2_test) (infinite2 p (2 ^ 384) (2 ^ 766)) (p * p) pk_HI (infinite2_nodup p _ _ p_pos p_384) pk_BI (infinite2_length p _ _ (Z.lt_le_incl _ _ p_pos))).
  Qed.
  Lemma key_string k : 0 < k < r -> exists l, ((length l = 96%nat /\ is_bytes l = true) /\ public_key_deserialize sqrt g2_test l = Ok (g2_times k g2_generator)) /\
    forall l', length l' = 96%nat -> is_bytes l' = true -> public_key_deserialize sqrt g2_test l' = Ok (g2_times k g2_generator) -> l' = l.
  Proof. exact (one_string 96 (public_key_deserialize sqrt g2_test) public_key_serialize (fun k => g2_times k g2_generator) r pk_Hser pk_Hcan k). Qed.
End Keys.
