(** Proofs for C73. *)
From Coq Require Import Permutation.
From Verif Require Import Base Constants Group Field Curve BlsModel PointModel EncodingModel HasherModel HashCurveModel HashCurveSpec CodecModel CodecSpec PropCodec FfiModel FfiSpec FfiProofs PropFfi FfiRestProofs CurveGroups OrderSpec TwistSpec RealSpec RealModel RealProofs PropReal KeygenModel KeygenSpec.

(** ** Counting *)
Lemma lists_all_length {A} (P : A -> Prop) L L' : lists_all P L -> lists_all P L' -> length L = length L'.
Proof.
  intros [N I] [N' I']. apply Permutation_length, NoDup_Permutation; [exact N|exact N'|]. intros x. rewrite I, I'. reflexivity.
Qed.
Lemma nodup_app {A} (l l' : list A) : NoDup l -> NoDup l' -> (forall a, In a l -> ~ In a l') -> NoDup (l ++ l').
Proof.
  induction 1 as [|a l NI N IH]; intros N' D; [exact N'|]. cbn [app]. constructor.
  - rewrite in_app_iff. intros [H|H]; [exact (NI H)|exact (D a (or_introl eq_refl) H)].
  - apply IH; [exact N'|]. intros b I. apply D. right. exact I.
Qed.
Section Words.
  Context {A : Type}.
  Fixpoint words (all : list A) (n : nat) : list (list A) :=
    match n with O => [[]] | S n' => flat_map (fun a => map (cons a) (words all n')) all end.
  Lemma flat_length {B} (f : A -> list B) m l : Forall (fun a => length (f a) = m) l -> length (flat_map f l) = (length l * m)%nat.
  Proof. induction 1 as [|a l E _ IH]; [reflexivity|]. cbn [flat_map length]. rewrite app_length, E, IH. reflexivity. Qed.
  Lemma words_length all n : length (words all n) = (length all ^ n)%nat.
  Proof. induction n as [|n IH]; [reflexivity|]. cbn [words]. rewrite (flat_length _ (length all ^ n)); [reflexivity|]. apply Forall_forall. intros a _. rewrite map_length. exact IH. Qed.
  Lemma words_in all n l : In l (words all n) <-> length l = n /\ Forall (fun a => In a all) l.
  Proof.
    revert l. induction n as [|n IH]; intros l; cbn [words].
    - split; [intros [<- | []]; split; [reflexivity|constructor]|]. intros [H _]. destruct l; [left; reflexivity|discriminate H].
    - rewrite in_flat_map. split.
      + intros (a & I & H). apply in_map_iff in H as (l' & <- & H). apply IH in H as [E F]. split; [cbn [length]; rewrite E; reflexivity|constructor; assumption].
      + intros [E F]. destruct l as [|a l]; [discriminate E|]. apply Forall_cons_iff in F as [I F]. exists a. split; [exact I|]. apply in_map, IH. split; [apply Nat.succ_inj, E|exact F].
  Qed.
  Lemma nodup_flat {B} (f : A -> list B) l : NoDup l -> (forall a, In a l -> NoDup (f a)) -> (forall a a' b, In a l -> In a' l -> In b (f a) -> In b (f a') -> a = a') -> NoDup (flat_map f l).
  Proof.
    induction l as [|a l IH]; intros N F D; [constructor|]. apply NoDup_cons_iff in N as [NI N]. cbn [flat_map]. apply nodup_app; [apply F; left; reflexivity|apply IH; [exact N|intros; apply F; right; assumption|intros b b' c I I'; apply D; right; assumption]|].
    intros b Hb Hb'. apply in_flat_map in Hb' as (a' & I & Hb'). apply NI. rewrite (D a a' b (or_introl eq_refl) (or_intror I) Hb Hb'). exact I.
  Qed.
  Lemma words_nodup all n : NoDup all -> NoDup (words all n).
  Proof.
    intros N. induction n as [|n IH]; cbn [words]; [constructor; [intros []|constructor]|]. apply nodup_flat; [exact N| |].
    - intros a _. apply FinFun.Injective_map_NoDup; [intros x y E; injection E as E; exact E|exact IH].
    - intros a a' b _ _ H H'. apply in_map_iff in H as (x & <- & _). apply in_map_iff in H' as (y & E & _). injection E as E _. symmetry. exact E.
  Qed.
End Words.
Definition count {A} (P : A -> bool) (l : list A) : nat := length (filter P l).
Lemma count_cons {A} (P : A -> bool) a l : count P (a :: l) = ((if P a then 1 else 0) + count P l)%nat.
Proof. unfold count. cbn [filter]. destruct (P a); reflexivity. Qed.
Lemma count_app {A} (P : A -> bool) l l' : count P (l ++ l') = (count P l + count P l')%nat.
Proof. unfold count. rewrite filter_app, app_length. reflexivity. Qed.
Lemma count_map {A B} (P : B -> bool) (f : A -> B) l : count P (map f l) = count (fun a => P (f a)) l.
Proof. unfold count. induction l as [|a l IH]; [reflexivity|]. cbn [map filter]. destruct (P (f a)); cbn [length]; rewrite IH; reflexivity. Qed.
Lemma count_ext {A} (P Q : A -> bool) l : (forall a, In a l -> P a = Q a) -> count P l = count Q l.
Proof.
  unfold count. induction l as [|a l IH]; intros H; [reflexivity|]. cbn [filter]. rewrite <- (H a (or_introl eq_refl)). assert (E : length (filter P l) = length (filter Q l)) by (apply IH; intros b I; apply H; right; exact I).
  destruct (P a); cbn [length]; rewrite E; reflexivity.
Qed.
Lemma count_all {A} (l : list A) : count (fun _ => true) l = length l.
Proof. unfold count. induction l as [|a l IH]; [reflexivity|]. cbn [filter length]. rewrite IH. reflexivity. Qed.
Lemma count_none {A} (l : list A) : count (fun _ => false) l = 0%nat.
Proof. unfold count. induction l as [|a l IH]; [reflexivity|]. exact IH. Qed.
Lemma count_not {A} (P : A -> bool) l : (count P l + count (fun a => negb (P a)) l = length l)%nat.
Proof. unfold count. induction l as [|a l IH]; [reflexivity|]. cbn [filter]. destruct (P a); cbn [negb length]; lia. Qed.
Lemma count_perm {A} (P : A -> bool) l l' : Permutation l l' -> count P l = count P l'.
Proof.
  unfold count. induction 1 as [|a l l' _ IH|a b l|l1 l2 l3 _ IH1 _ IH2]; cbn [filter]; [reflexivity| | |congruence].
  - destruct (P a); cbn [length]; rewrite IH; reflexivity.
  - destruct (P a), (P b); reflexivity.
Qed.
Lemma lists_filter {A} (Q : A -> Prop) (P : A -> bool) L : lists_all Q L -> lists_all (fun d => Q d /\ P d = true) (filter P L).
Proof. intros [N I]. split; [apply NoDup_filter, N|]. intros d. rewrite filter_In, I. reflexivity. Qed.

Definition is (k : Z) (o : option Z) : bool := match o with Some k' => k' =? k | None => false end.
Definition still (o : option Z) : bool := match o with Some _ => false | None => true end.
Section First.
  Context {A : Type} (f : A -> option Z).
  Fixpoint first_of (l : list A) : option Z := match l with [] => None | a :: l' => match f a with Some k => Some k | None => first_of l' end end.
  Lemma count_first k W l : count (fun d => is k (first_of d)) (flat_map (fun a => map (cons a) W) l) =
    (count (fun a => is k (f a)) l * length W + count (fun a => still (f a)) l * count (fun d => is k (first_of d)) W)%nat.
  Proof.
    induction l as [|a l IH]; [reflexivity|]. cbn [flat_map]. rewrite count_app, count_map, IH, !count_cons. cbn [first_of].
    destruct (f a) as [k'|]; cbn [is still]; [|lia]. destruct (k' =? k); [rewrite count_all|rewrite count_none]; lia.
  Qed.
  Lemma count_still W l : count (fun d => still (first_of d)) (flat_map (fun a => map (cons a) W) l) = (count (fun a => still (f a)) l * count (fun d => still (first_of d)) W)%nat.
  Proof.
    induction l as [|a l IH]; [reflexivity|]. cbn [flat_map]. rewrite count_app, count_map, IH, !count_cons. cbn [first_of].
    destruct (f a) as [k'|]; cbn [still]; [rewrite count_none|]; lia.
  Qed.
  (** How often a value comes out of [n] draws, and how often none does. *)
  Lemma first_count all k n N q c : Z.of_nat (length all) = N -> Z.of_nat (count (fun a => still (f a)) all) = q -> Z.of_nat (count (fun a => is k (f a)) all) = c ->
    Z.of_nat (count (fun d => is k (first_of d)) (words all n)) * (N - q) = c * (N ^ Z.of_nat n - q ^ Z.of_nat n).
  Proof.
    intros EN Eq Ec. induction n as [|n IH]; [cbn [words]; unfold count; cbn [filter first_of is length]; rewrite !Z.pow_0_r; lia|]. cbn [words]. rewrite count_first, words_length, Nat2Z.inj_add, !Nat2Z.inj_mul, Nat2Z.inj_pow, EN, Eq, Ec, Nat2Z.inj_succ, !Z.pow_succ_r by apply Nat2Z.is_nonneg.
    rewrite Z.mul_add_distr_r, <- (Z.mul_assoc q), IH. ring.
  Qed.
  Lemma still_count all n q : Z.of_nat (count (fun a => still (f a)) all) = q -> Z.of_nat (count (fun d => still (first_of d)) (words all n)) = q ^ Z.of_nat n.
  Proof.
    intros Eq. induction n as [|n IH]; [reflexivity|]. cbn [words]. rewrite count_still, Nat2Z.inj_mul, Eq, IH, Nat2Z.inj_succ, Z.pow_succ_r by apply Nat2Z.is_nonneg. reflexivity.
  Qed.
End First.
(** ** Numbers below a bound *)
Definition zrange (n : Z) : list Z := map Z.of_nat (seq 0 (Z.to_nat n)).
Lemma zrange_in n a : In a (zrange n) <-> 0 <= a < n.
Proof.
  unfold zrange. rewrite in_map_iff. split.
  - intros (i & <- & I). apply in_seq in I. lia.
  - intros H. exists (Z.to_nat a). split; [apply Z2Nat.id, H|]. apply in_seq. lia.
Qed.
Lemma zrange_nodup n : NoDup (zrange n).
Proof. apply FinFun.Injective_map_NoDup; [intros x y; apply Nat2Z.inj|apply seq_NoDup]. Qed.
Lemma zrange_length n : 0 <= n -> Z.of_nat (length (zrange n)) = n.
Proof. intros H. unfold zrange. rewrite map_length, seq_length. apply Z2Nat.id, H. Qed.
Lemma zrange_add a b : 0 <= a -> 0 <= b -> zrange (a + b) = zrange a ++ map (fun x => a + x) (zrange b).
Proof.
  intros Ha Hb. unfold zrange. rewrite Z2Nat.inj_add by assumption. rewrite seq_app, map_app, map_map. f_equal. cbn [plus]. 
  assert (G : forall s n, map Z.of_nat (seq (s + Z.to_nat a) n) = map (fun x => a + Z.of_nat x) (seq s n)).
  { intros s n. revert s. induction n as [|n IH]; intros s; [reflexivity|]. cbn [seq map]. rewrite <- (IH (S s)). f_equal. rewrite Nat2Z.inj_add, Z2Nat.id by exact Ha. ring. }
  exact (G 0%nat (Z.to_nat b)).
Qed.
Lemma count_mod (P : Z -> bool) M t : 0 < M -> (count (fun v => P (v mod M)%Z) (zrange (Z.of_nat t * M)) = t * count P (zrange M))%nat.
Proof.
  intros HM. induction t as [|t IH]; [reflexivity|]. rewrite Nat2Z.inj_succ, Z.mul_succ_l, zrange_add, count_app, IH, count_map by nia.
  rewrite (count_ext (fun a => P ((Z.of_nat t * M + a) mod M)%Z) P (zrange M)); [lia|]. intros a I. apply zrange_in in I. f_equal. rewrite Z.add_comm, Z.mod_add by lia. apply Z.mod_small, I.
Qed.
Lemma count_below M b : 0 <= b <= M -> Z.of_nat (count (fun v => v <? b) (zrange M)) = b.
Proof.
  intros H. replace M with (b + (M - b)) by ring. rewrite zrange_add, count_app, count_map by lia. rewrite (count_ext _ (fun _ => true)), count_all.
  - rewrite (count_ext _ (fun _ => false) (zrange (M - b))), count_none, Nat.add_0_r; [apply zrange_length, H|]. intros a I. apply zrange_in in I. apply Z.ltb_ge. lia.
  - intros a I. apply zrange_in in I. apply Z.ltb_lt. lia.
Qed.
Lemma count_one M b : 0 <= b < M -> count (fun v => v =? b) (zrange M) = 1%nat.
Proof.
  intros H. replace M with (b + (1 + (M - b - 1))) by ring. rewrite zrange_add, (zrange_add 1) by lia. rewrite map_app, !count_app, !count_map.
  rewrite (count_ext _ (fun _ => false) (zrange b)), count_none; [|intros a I; apply zrange_in in I; apply Z.eqb_neq; lia].
  rewrite (count_ext _ (fun _ => false) (zrange (M - b - 1))), count_none; [|intros a I; apply zrange_in in I; apply Z.eqb_neq; lia].
  change (zrange 1) with [0]. unfold count. cbn [filter map]. rewrite Z.add_0_r, Z.eqb_refl. reflexivity.
Qed.
Lemma nodup_map_in {A B} (f : A -> B) W : NoDup W -> (forall x y, In x W -> In y W -> f x = f y -> x = y) -> NoDup (map f W).
Proof.
  induction 1 as [|a W NI N IH]; intros H; cbn [map]; constructor.
  - rewrite in_map_iff. intros (b & E & I). apply NI. rewrite <- (H b a (or_intror I) (or_introl eq_refl) E). exact I.
  - apply IH. intros x y I I'. apply H; right; assumption.
Qed.
(** ** Limbs *)
Fixpoint digits_value (B : Z) (l : list Z) : Z := match l with [] => 0 | a :: l' => a + B * digits_value B l' end.
Lemma digits_bound B n l : 0 < B -> In l (words (zrange B) n) -> 0 <= digits_value B l < B ^ Z.of_nat n.
Proof.
  intros HB H. apply words_in in H as [E F]. subst n. induction F as [|a l I F IH]; [cbn; lia|]. apply zrange_in in I. cbn [digits_value length]. rewrite Nat2Z.inj_succ, Z.pow_succ_r by apply Nat2Z.is_nonneg. nia.
Qed.
Lemma digits_inj B n l l' : 0 < B -> In l (words (zrange B) n) -> In l' (words (zrange B) n) -> digits_value B l = digits_value B l' -> l = l'.
Proof.
  intros HB H H'. apply words_in in H as [E F], H' as [E' F']. revert n l' E E' F'. induction F as [|a l I F IH]; intros n [|a' l'] E E' F' V; [reflexivity|rewrite <- E in E'; discriminate E'|rewrite <- E' in E; discriminate E|].
  apply Forall_cons_iff in F' as [I' F']. apply zrange_in in I, I'. cbn [digits_value length] in *. destruct n as [|n]; [discriminate E|]. apply Nat.succ_inj in E, E'.
  assert (a = a') by (apply (f_equal (fun v => v mod B)) in V; rewrite !(Z.mul_comm B), !Z.mod_add, !Z.mod_small in V by lia; exact V). subst a'. f_equal. apply (IH n l' E E' F'). nia.
Qed.
Lemma digits_onto B n v : 0 < B -> 0 <= v < B ^ Z.of_nat n -> exists l, In l (words (zrange B) n) /\ digits_value B l = v.
Proof.
  intros HB. revert v. induction n as [|n IH]; intros v H.
  - exists []. split; [left; reflexivity|]. cbn in *. lia.
  - rewrite Nat2Z.inj_succ, Z.pow_succ_r in H by apply Nat2Z.is_nonneg. destruct (IH (v / B)) as (l & I & E); [split; [apply Z.div_pos; lia|apply Z.div_lt_upper_bound; lia]|].
    exists (v mod B :: l). split; [|cbn [digits_value]; rewrite E; symmetry; rewrite Z.add_comm; apply Z.div_mod; lia].
    apply words_in in I as [I1 I2]. apply words_in. split; [cbn [length]; rewrite I1; reflexivity|]. constructor; [apply zrange_in, Z.mod_pos_bound, HB|exact I2].
Qed.
Lemma digits_perm B n : 0 < B -> Permutation (map (digits_value B) (words (zrange B) n)) (zrange (B ^ Z.of_nat n)).
Proof.
  intros HB. apply NoDup_Permutation; [|apply zrange_nodup|].
  - apply nodup_map_in; [apply words_nodup, zrange_nodup|]. intros l l' I I'. apply (digits_inj B n); assumption.
  - intros v. rewrite in_map_iff, zrange_in. split.
    + intros (l & <- & I). apply digits_bound; assumption.
    + intros H. destruct (digits_onto B n v HB H) as (l & I & E). exists l. split; assumption.
Qed.
(** The draws. *)
Definition all_draws : list (list Z) := words (zrange (2 ^ 64)) 4.
Lemma all_draws_in d : In d all_draws <-> draw d.
Proof. unfold all_draws, draw. rewrite words_in, !Forall_forall. setoid_rewrite zrange_in. reflexivity. Qed.
Lemma all_draws_length : Z.of_nat (length all_draws) = 2 ^ 256.
Proof.
  assert (G : forall B, 0 <= B -> Z.of_nat (length (words (zrange B) 4)) = B ^ 4) by (intros B HB; rewrite words_length, Nat2Z.inj_pow, zrange_length by exact HB; reflexivity).
  unfold all_draws. rewrite G; [reflexivity|]. apply Z.pow_nonneg. lia.
Qed.
Lemma limb_digits l : limb_value l = digits_value (2 ^ 64) l.
Proof. induction l as [|a l IH]; [reflexivity|]. cbn [limb_value digits_value]. rewrite IH. reflexivity. Qed.
Lemma count_masked B n t M (P : Z -> bool) : 0 < B -> 0 < M -> B ^ Z.of_nat n = Z.of_nat t * M ->
  count (fun d => P (digits_value B d mod M)) (words (zrange B) n) = (t * count P (zrange M))%nat.
Proof.
  intros HB HM E. rewrite <- (count_mod P M t HM), <- E, <- (count_perm _ _ _ (digits_perm B n HB)), count_map. reflexivity.
Qed.
Lemma count_draws (P : Z -> bool) : count (fun d => P (limb_value d mod 2 ^ 253)) all_draws = (8 * count P (zrange (2 ^ 253)))%nat.
Proof.
  rewrite (count_ext _ (fun d => P (digits_value (2 ^ 64) d mod 2 ^ 253))) by (intros d _; rewrite limb_digits; reflexivity). apply count_masked; [reflexivity|reflexivity|reflexivity].
Qed.
Lemma mont_unit : (2 ^ 256 * MONTGOMERY_INVERSE) mod r = 1. Proof. vm_compute. reflexivity. Qed.
Lemma candidate_eq d : fr_candidate d = if limb_value d mod 2 ^ 253 <? r then Some ((limb_value d mod 2 ^ 253 * MONTGOMERY_INVERSE) mod r) else None.
Proof. reflexivity. Qed.
Lemma unit_inverse a b n k v : 0 < n -> (a * b) mod n = 1 -> 0 <= k < n -> 0 <= v < n -> ((v * b) mod n =? k) = (v =? (k * a) mod n).
Proof.
  intros Hn U Hk Hv. apply eq_true_iff_eq. rewrite !Z.eqb_eq. split.
  - intros <-. rewrite Z.mul_mod_idemp_l by lia. replace (v * b * a) with (v * (a * b)) by ring. rewrite <- Z.mul_mod_idemp_r, U, Z.mul_1_r by lia. symmetry. apply Z.mod_small, Hv.
  - intros ->. rewrite Z.mul_mod_idemp_l by lia. replace (k * a * b) with (k * (a * b)) by ring. rewrite <- Z.mul_mod_idemp_r, U, Z.mul_1_r by lia. apply Z.mod_small, Hk.
Qed.
Lemma count_key k : 0 <= k < r -> Z.of_nat (count (fun d => is k (fr_candidate d)) all_draws) = 8.
Proof.
  intros Hk. assert (Hr : 0 < r) by reflexivity. assert (Hb : r <= 2 ^ 253) by (intros K; discriminate K). pose proof (Z.mod_pos_bound (k * 2 ^ 256) r Hr) as Hm.
  rewrite (count_ext _ (fun d => (fun v => v =? (k * 2 ^ 256) mod r) (limb_value d mod 2 ^ 253))).
  - rewrite (count_draws (fun v => v =? (k * 2 ^ 256) mod r)), count_one by (split; [apply Hm|exact (Z.lt_le_trans _ _ _ (proj2 Hm) Hb)]). reflexivity.
  - intros d _. rewrite candidate_eq. cbv beta. pose proof (proj1 (Z.mod_pos_bound (limb_value d) (2 ^ 253) eq_refl)) as H0. set (v := limb_value d mod 2 ^ 253) in *. destruct (v <? r) eqn:E; cbn [is].
    + apply unit_inverse; [exact Hr|exact mont_unit|exact Hk|split; [exact H0|apply Z.ltb_lt, E]].
    + symmetry. apply Z.eqb_neq. intros K. apply Z.ltb_ge in E. rewrite K in E. exact (Zlt_not_le _ _ (proj2 Hm) E).
Qed.
Lemma count_rejected : Z.of_nat (count (fun d => still (fr_candidate d)) all_draws) = 2 ^ 256 - 8 * r.
Proof.
  pose proof (count_not (fun d => still (fr_candidate d)) all_draws) as E. apply (f_equal Z.of_nat) in E. rewrite Nat2Z.inj_add, all_draws_length in E.
  rewrite (count_ext (fun d => negb (still (fr_candidate d))) (fun d => (fun v => v <? r) (limb_value d mod 2 ^ 253))) in E.
  - rewrite (count_draws (fun v => v <? r)), Nat2Z.inj_mul, count_below in E; [|split; intros K; discriminate K]. apply Z.add_move_r in E. exact E.
  - intros d _. rewrite candidate_eq. cbv beta. destruct (limb_value d mod 2 ^ 253 <? r); reflexivity.
Qed.
Lemma fr_rand_first l : fr_rand l = first_of fr_candidate l.
Proof. induction l as [|d l IH]; [reflexivity|]. cbn [fr_rand first_of]. rewrite IH. reflexivity. Qed.
Lemma all_lists n : lists_all (draws n) (words all_draws n).
Proof. split; [exact (words_nodup _ n (words_nodup _ 4 (zrange_nodup _)))|]. intros l. rewrite words_in. unfold draws. split; intros [E F]; (split; [exact E|]).
  - exact (Forall_impl _ (fun d => proj1 (all_draws_in d)) F).
  - exact (Forall_impl _ (fun d => proj2 (all_draws_in d)) F).
Qed.
Lemma is_iff k o : is k o = true <-> o = Some k.
Proof. destruct o as [k'|]; cbn [is]; [rewrite Z.eqb_eq|]; split; intros H; try discriminate H; congruence. Qed.
Lemma still_iff o : still o = true <-> o = None.
Proof. destruct o as [k'|]; cbn [still]; split; intros H; try discriminate H; reflexivity. Qed.
Lemma lists_ext {A} (P Q : A -> Prop) L : (forall d, P d <-> Q d) -> lists_all P L -> lists_all Q L.
Proof. intros E [N I]. split; [exact N|]. intros d. rewrite I. apply E. Qed.
Lemma key_list n k : lists_all (fun d => draws n d /\ generate d = Some k) (filter (fun d => is k (generate d)) (words all_draws n)).
Proof. apply (lists_ext (fun d => draws n d /\ is k (generate d) = true)); [intros d; rewrite is_iff; reflexivity|]. apply lists_filter, all_lists. Qed.
Lemma running_list n : lists_all (fun d => draws n d /\ generate d = None) (filter (fun d => still (generate d)) (words all_draws n)).
Proof. apply (lists_ext (fun d => draws n d /\ still (generate d) = true)); [intros d; rewrite still_iff; reflexivity|]. apply lists_filter, all_lists. Qed.
Lemma divide8 x a b c d : x * (a - (a - 8 * b)) = 8 * (c - d) -> x * b = c - d. Proof. intros H. nia. Qed.
Lemma uniform_c n k L : 0 <= k < r -> lists_all (fun d => draws n d /\ generate d = Some k) L ->
  Z.of_nat (length L) * r = (2 ^ 256) ^ Z.of_nat n - (2 ^ 256 - 8 * r) ^ Z.of_nat n.
Proof.
  intros Hk HL. rewrite (lists_all_length _ _ _ HL (key_list n k)). change (length (filter ?P ?l)) with (count P l).
  rewrite (count_ext _ (fun d => is k (first_of fr_candidate d))) by (intros d _; unfold generate; rewrite fr_rand_first; reflexivity).
  exact (divide8 _ _ _ _ _ (first_count fr_candidate all_draws k n _ _ _ all_draws_length count_rejected (count_key k Hk))).
Qed.
Lemma running_c n L : lists_all (fun d => draws n d /\ generate d = None) L ->
  Z.of_nat (length L) = (2 ^ 256 - 8 * r) ^ Z.of_nat n.
Proof.
  intros HL. rewrite (lists_all_length _ _ _ HL (running_list n)). change (length (filter ?P ?l)) with (count P l).
  rewrite (count_ext _ (fun d => still (first_of fr_candidate d))) by (intros d _; unfold generate; rewrite fr_rand_first; reflexivity).
  exact (still_count fr_candidate all_draws n _ count_rejected).
Qed.
Lemma generate_range d k : generate d = Some k -> 0 <= k < r.
Proof.
  unfold generate. induction d as [|a d IH]; [intros H; discriminate H|]. cbn [fr_rand]. rewrite candidate_eq. destruct (limb_value a mod 2 ^ 253 <? r); [|exact IH].
  intros H. injection H as <-. apply Z.mod_pos_bound. reflexivity.
Qed.
(** ** Bytes *)
Lemma c_generate_iff d out : c_generate d = Some out <-> exists k, generate d = Some k /\ is_bytes out = true /\ length out = 32%nat /\ number out = k.
Proof.
  assert (G : forall k, 0 <= k < r -> is_bytes (private_key_serialize k) = true /\ length (private_key_serialize k) = 32%nat /\ number (private_key_serialize k) = k).
  { intros k Hk. assert (B : is_bytes (private_key_serialize k) = true) by (unfold private_key_serialize, fp_write; rewrite CodecProofs.or_last_0; apply EncodingProofs.le_bytes_is_bytes). pose proof (proj1 C30_sizes k) as LL. split; [exact B|]. split; [exact LL|].
    pose proof (C30_private_key_roundtrip k [] eq_refl Hk) as R. rewrite (app_nil_r (private_key_serialize k)) in R. apply C30_private_key_accepts in R as (_ & E & _); [|exact B]. rewrite firstn_all2 in E by (rewrite LL; apply Nat.le_refl). exact (eq_sym E). }
  unfold c_generate. destruct (generate d) as [k|] eqn:E; [|split; [intros H; discriminate H|intros (k & H & _); discriminate H]]. pose proof (G k (generate_range d k E)) as (B & LL & V). unfold ffi_serialize, out_vec. cbn [store convert_result_to_bool fst]. split.
  - intros H. injection H as <-. exists k. split; [reflexivity|]. split; [exact B|]. split; [exact LL|exact V].
  - intros (k' & H & B' & LL' & V'). injection H as <-. f_equal. apply CodecProofs.number_inj; [exact B|exact B'|congruence|congruence].
Qed.
Section Use.
  Context (GT : grp) (e : g1_point -> g2_point -> GT) (L : bilinear e).
  Context (compat : bool) (ped : bytes -> result bytes) (sqrt : fq -> option fq) (sqrt2 : fq2 -> option fq2).
  Hypothesis ped_bytes : forall m out, ped m = Ok out -> is_bytes out = true.
  Hypothesis sqrt_ok : sqrt_spec qmul sqrt.
  Hypothesis sqrt2_ok : sqrt_spec q2mul sqrt2.
  Lemma generated_public d sk : c_generate d = Some sk -> exists k, generate d = Some k /\ is_bytes sk = true /\ firstn 32 sk = sk /\ length sk = 32%nat /\ number sk = k /\ k < r /\ c_public_key GT e L sk = Some (public_key_serialize (g2_times k g2_generator)).
  Proof.
    intros H. apply c_generate_iff in H as (k & E & B & LL & V). pose proof (generate_range d k E) as R. assert (F : firstn 32 sk = sk) by (apply firstn_all2; rewrite LL; apply Nat.le_refl).
    exists k. repeat (split; [first [assumption|apply R]|]). apply (C70_public_key GT e L sk _ B). rewrite F, V, LL. split; [apply Nat.le_refl|]. split; [apply R|reflexivity].
  Qed.
  Lemma usable_c d sk : c_generate d = Some sk -> exists pk, c_public_key GT e L sk = Some pk /\
    forall m x c f H, hashed compat ped sqrt c f SIG_DOMAIN m x H -> exists sig, c_sign GT e L compat ped sqrt sk m x c f = Some sig /\ c_verify GT e L compat ped sqrt sqrt2 pk sig m x c f = Some true.
  Proof.
    intros G. destruct (generated_public d sk G) as (k & E & B & F & LL & V & R & HP). eexists. split; [exact HP|]. intros m x c f H HH. exists (signature_serialize (g1_times k H)).
    assert (S : c_sign GT e L compat ped sqrt sk m x c f = Some (signature_serialize (g1_times k H))).
    { apply (C70_sign GT e L compat ped sqrt ped_bytes sqrt_ok sk m x c f _ B). exists H. rewrite F, V, LL. split; [apply Nat.le_refl|]. split; [exact R|]. split; [exact HH|reflexivity]. }
    split; [exact S|]. pose proof (C70_round_trip GT e L compat ped sqrt sqrt2 ped_bytes sqrt_ok sqrt2_ok sk _ _ m x c f [] [] B eq_refl eq_refl HP S) as T.
    rewrite !app_nil_r in T. exact T.
  Qed.
  Lemma zero_key_c : exists d sk pk sig, draw d /\ c_generate [d] = Some sk /\ c_public_key GT e L sk = Some pk /\
    forall m x c f H, hashed compat ped sqrt c f SIG_DOMAIN m x H -> c_sign GT e L compat ped sqrt sk m x c f = Some sig /\ c_verify GT e L compat ped sqrt sqrt2 pk sig m x c f = Some true.
  Proof.
    exists [0; 0; 0; 0], (repeat 0 32), (public_key_serialize None), (signature_serialize None).
    assert (G : c_generate [[0; 0; 0; 0]] = Some (repeat 0 32)) by (vm_compute; reflexivity).
    split; [split; [reflexivity|repeat (constructor; [lia|]); constructor]|]. split; [exact G|]. destruct (generated_public _ _ G) as (k & E & B & F & LL & V & R & HP).
    assert (k = 0) as -> by (rewrite <- V; reflexivity). split; [exact HP|]. intros m x c f H HH.
    assert (S : c_sign GT e L compat ped sqrt (repeat 0 32) m x c f = Some (signature_serialize None)).
    { apply (C70_sign GT e L compat ped sqrt ped_bytes sqrt_ok _ m x c f _ B). exists H. rewrite F, V, LL. split; [apply Nat.le_refl|]. split; [exact R|]. split; [exact HH|reflexivity]. }
    split; [exact S|]. pose proof (C70_round_trip GT e L compat ped sqrt sqrt2 ped_bytes sqrt_ok sqrt2_ok _ _ _ m x c f [] [] B eq_refl eq_refl HP S) as T.
    rewrite !app_nil_r in T. exact T.
  Qed.
End Use.
Lemma running_half n L : lists_all (fun d => draws n d /\ generate d = None) L -> Z.of_nat (length L) * 2 ^ Z.of_nat n <= (2 ^ 256) ^ Z.of_nat n.
Proof.
  intros H. rewrite (running_c n L H), <- Z.pow_mul_l. apply Z.pow_le_mono_l. split; intros K; discriminate K.
Qed.
Lemma count_some {A} (P : A -> bool) l : count P l <> 0%nat -> exists a, In a l /\ P a = true.
Proof.
  induction l as [|a l IH]; intros N; [contradiction N; reflexivity|]. destruct (P a) eqn:E; [exists a; split; [left; reflexivity|exact E]|].
  rewrite count_cons, E in N. destruct (IH N) as (b & I & K). exists b. split; [right; exact I|exact K].
Qed.
Lemma every_key k : 0 <= k < r -> exists d, draw d /\ generate [d] = Some k.
Proof.
  intros Hk. assert (N : count (fun d => is k (fr_candidate d)) all_draws <> 0%nat) by (intros K; pose proof (count_key k Hk) as C; rewrite K in C; discriminate C).
  destruct (count_some _ _ N) as (d & I & K). exists d. split; [exact (proj1 (all_draws_in d) I)|].
  unfold generate. cbn [fr_rand]. apply is_iff in K. rewrite K. reflexivity.
Qed.
